(** Proofs about the parameter choice and the limit checks. *)
From Coq Require Import Reals Lra.
From Flocq Require Import Core IEEE754.BinarySingleNaN.
From Verif Require Import Base M_smix M_scrypt_sel M_machine M_double SpecDouble P_double M_memlimit M_cpuperf M_humansize M_params.

Lemma shiftl_pow2 l : l <= 63 -> w64 (N.shiftl 1 l) = 2 ^ l.
Proof. intros H. rewrite N.shiftl_1_l. apply w64_small. apply N.pow_lt_mono_r; lia. Qed.

Lemma pick_logN_spec half : forall f l0, l0 <= 63 -> (63 - N.to_nat l0 < f)%nat -> 1 <= l0 ->
  let l := pick_logN f l0 half in
  l0 <= l <= 63 /\ (l < 63 -> dlt half (of_N (2 ^ l)) = true) /\
  (forall j, l0 <= j < l -> dlt half (of_N (2 ^ j)) = false).
Proof.
  induction f as [|f IH]; intros l0 H1 H2 H3; [lia|]. cbv zeta. cbn [pick_logN].
  destruct (N.ltb_spec l0 63) as [Hl|Hl].
  - rewrite shiftl_pow2 by lia. destruct (dlt half (of_N (2 ^ l0))) eqn:E.
    + repeat split; try lia.
    + destruct (IH (l0 + 1)) as (A & B & C); [lia|lia|lia|]. cbv zeta in *.
      repeat split; try lia; auto. intros j Hj. destruct (N.eq_dec j l0) as [->|Hn]; [exact E|apply C; lia].
  - repeat split; try lia.
Qed.

Lemma bpow_IZR k : (0 <= k)%Z -> bpow radix2 k = IZR (2 ^ k).
Proof. intros H. symmetry. apply pow2_bpow. exact H. Qed.
Lemma fin_dlt_pow half l : is_finite half = true -> l <= 64 ->
  dlt half (of_N (2 ^ l)) = Rlt_bool (B2R half) (bpow radix2 (Z.of_N l)).
Proof. intros F Hl. destruct (of_N_pow2 l Hl) as [F1 E1]. rewrite dlt_fin, E1 by assumption. reflexivity. Qed.

(** The loop finds, for a real x with 2 <= x < 2^63, the power of two in (x/2, x]. *)
Lemma pick_logN_real half x : is_finite half = true -> B2R half = (x / 2)%R -> (2 <= x)%R -> (x < bpow radix2 63)%R ->
  let l := pick_logN 63 1 half in
  1 <= l <= 62 /\ (bpow radix2 (Z.of_N l) <= x)%R /\ (x < 2 * bpow radix2 (Z.of_N l))%R.
Proof.
  intros F E H2 H63. destruct (pick_logN_spec half 63 1) as (A & B & C); [lia|lia|lia|].
  cbv zeta in *. set (l := pick_logN 63 1 half) in *.
  assert (forall j, 1 <= j < l -> (bpow radix2 (Z.of_N j) <= x / 2)%R) as C'.
  { intros j Hj. specialize (C j Hj). rewrite fin_dlt_pow in C by (auto; lia). rewrite E in C.
    destruct (Rlt_bool_spec (x / 2) (bpow radix2 (Z.of_N j))); [discriminate|assumption]. }
  assert (l <> 63) as Hn.
  { intros E63. specialize (C' 62 ltac:(lia)).
    assert (bpow radix2 63 = 2 * bpow radix2 62)%R as EB by (change 63%Z with (1 + 62)%Z; rewrite bpow_plus; reflexivity).
    change (Z.of_N 62) with 62%Z in C'. lra. }
  specialize (B ltac:(lia)). rewrite fin_dlt_pow in B by (auto; lia). rewrite E in B.
  destruct (Rlt_bool_spec (x / 2) (bpow radix2 (Z.of_N l))) as [B'|]; [|discriminate].
  split; [lia|]. split; [|lra].
  destruct (N.eq_dec l 1) as [E1|E1].
  - rewrite E1. change (bpow radix2 (Z.of_N 1)) with 2%R. exact H2.
  - specialize (C' (l - 1) ltac:(lia)).
    assert (bpow radix2 (Z.of_N l) = 2 * bpow radix2 (Z.of_N (l - 1)))%R as EB.
    { replace (Z.of_N l) with (1 + Z.of_N (l - 1))%Z by lia. rewrite bpow_plus. reflexivity. }
    lra.
Qed.

(** to_uint of a non-negative finite double: the floor. *)
Lemma to_uint_floor bits x : is_finite x = true -> (0 <= B2R x)%R -> (B2R x < bpow radix2 (Z.of_N bits))%R ->
  exists n, to_uint bits x = Ok n /\ n < 2 ^ bits /\ (IZR (Z.of_N n) <= B2R x < IZR (Z.of_N n) + 1)%R.
Proof.
  intros F H0 H1. unfold to_uint. rewrite F. cbn [andb].
  pose proof (Btrunc_correct 53 1024 prec_lt_emax_53 x) as HT. rewrite round_FIX_IZR in HT. apply eq_IZR in HT.
  rewrite Ztrunc_floor in HT by exact H0. rewrite HT.
  assert (0 <= Zfloor (B2R x))%Z as HF0 by (apply Zfloor_lub; exact H0).
  assert (Zfloor (B2R x) < 2 ^ Z.of_N bits)%Z as HF1.
  { apply lt_IZR. rewrite pow2_bpow by lia. apply Rle_lt_trans with (B2R x); [apply Zfloor_lb|exact H1]. }
  destruct (Z.leb_spec 0 (Zfloor (B2R x))); [|lia]. destruct (Z.ltb_spec (Zfloor (B2R x)) (2 ^ Z.of_N bits)); [|lia].
  cbn [andb]. exists (Z.to_N (Zfloor (B2R x))). split; [reflexivity|]. split.
  - assert (Z.of_N (2 ^ bits) = (2 ^ Z.of_N bits)%Z) by apply N2Z.inj_pow. lia.
  - rewrite Z2N.id by lia. split; [apply Zfloor_lb|apply Zfloor_ub].
Qed.

Lemma at_most_small q x : (bpow radix2 (-900) <= q)%R -> at_most q x -> at_most (bpow radix2 (-900)) x.
Proof. intros H. apply at_most_le. exact H. Qed.
Lemma bpow_m900 : (bpow radix2 (-900) < 1)%R.
Proof. change 1%R with (bpow radix2 0). apply bpow_lt. lia. Qed.
Lemma fits_inf n : fits n dinf.
Proof. left. reflexivity. Qed.
Lemma fits_fin n x : is_finite x = true -> (fits n x <-> (IZR (Z.of_N n) <= B2R x)%R).
Proof.
  intros F. unfold fits, at_most. split; [intros [->|[_ H]]; [discriminate|exact H]|auto].
Qed.

Theorem pick_from_limits_spec L O : 2 ^ 20 <= L <= 2 ^ 64 - 2048 -> at_most 32768 O ->
  exists l p, pick_from_limits L O = Ok (l, 8, p) /\
    10 <= l <= 53 /\ 1 <= p /\ 8 * p < 2 ^ 30 /\
    128 * 2 ^ l * 8 <= L /\ fits (4 * 2 ^ l * 8 * p) O /\
    ((p = 1 /\ ~ fits (4 * (2 * 2 ^ l) * 8 * p) O) \/
     (L < 128 * (2 * 2 ^ l) * 8 /\ (~ fits (4 * 2 ^ l * 8 * (p + 1)) O \/ 2 ^ 30 <= 8 * (p + 1)))).
Proof.
  intros HL HO. unfold pick_from_limits. cbv zeta.
  assert (forall q, (1 <= q)%R -> at_most q O -> at_most (bpow radix2 (-900)) O) as Hsm.
  { intros q Hq. apply at_most_le. pose proof bpow_m900. lra. }
  assert (at_most (bpow radix2 (-900)) O) as HO9 by (apply (Hsm 32768%R); [lra|exact HO]).
  destruct (of_N_spec L) as [FL EL]; [lia|].
  assert (1 <= B2R (of_N L))%R as HL1 by (apply of_N_pos; lia).
  change (of_N 32) with (of_N (2 ^ 5)). change (w32 (8 * 4)) with (2 ^ 5). change (w32 (8 * 128)) with 1024.
  change (of_N 2) with (of_N (2 ^ 1)). change (of_N 4) with (of_N (2 ^ 2)).
  destruct (ddiv_pow2 (of_N L) 5) as [[E _]|(_ & FL5 & EL5)]; [lia| |rewrite E in FL; discriminate|].
  { right. split; [exact FL|]. pose proof bpow_m900. lra. }
  change (bpow radix2 (Z.of_N 5)) with 32%R in EL5.
  destruct (dlt O (ddiv (of_N L) (of_N (2 ^ 5)))) eqn:ED.
  - (* CPU limit binds *)
    destruct (dlt_true_fin _ _ FL5 ED) as [[FO HOL]|EO].
    2: { exfalso. subst O. destruct HO as [H|[H _]]; discriminate. }
    destruct HO as [EO|[_ HO]]; [subst O; discriminate|].
    destruct (ddiv_pow2 O 5) as [[E _]|(_ & F5 & E5)]; [lia|exact HO9|subst O; discriminate|].
    change (bpow radix2 (Z.of_N 5)) with 32%R in E5.
    destruct (ddiv_pow2 (ddiv O (of_N (2 ^ 5))) 1) as [[E _]|(_ & F1 & E1)]; [lia| |rewrite E in F5; discriminate|].
    { right. split; [exact F5|]. rewrite E5. pose proof bpow_m900. lra. }
    change (bpow radix2 (Z.of_N 1)) with 2%R in E1. rewrite E5 in E1.
    assert (B2R (of_N L) <= bpow radix2 64)%R as HLb.
    { rewrite EL. rewrite <- (rnd_fmt (bpow radix2 64)) by (apply fmt_bpow; lia). apply rnd_le.
      rewrite <- pow2_bpow by lia. apply IZR_le. lia. }
    assert (bpow radix2 64 = 2 * bpow radix2 63)%R as EB by (change 64%Z with (1 + 63)%Z; rewrite bpow_plus; reflexivity).
    pose proof (bpow_gt_0 radix2 63) as Hb63.
    destruct (pick_logN_real (ddiv (ddiv O (of_N (2 ^ 5))) (of_N (2 ^ 1))) (B2R O / 32) F1 E1) as (Hl & Hlo & Hhi); [lra|lra|].
    set (l := pick_logN 63 1 _) in *. exists l, 1. split; [reflexivity|].
    pose proof (pow2_N l) as EP.
    assert (128 * 2 ^ l * 8 <= L) as HM.
    { destruct (N.le_gt_cases (128 * 2 ^ l * 8) L) as [H|H]; [exact H|exfalso].
      assert (B2R (of_N L) <= bpow radix2 (10 + Z.of_N l))%R as HC.
      { rewrite EL. rewrite <- (rnd_fmt (bpow radix2 (10 + Z.of_N l))) by (apply fmt_bpow; lia). apply rnd_le.
        rewrite bpow_plus, <- EP. change (bpow radix2 10) with 1024%R. rewrite <- mult_IZR. apply IZR_le. lia. }
      rewrite bpow_plus in HC. change (bpow radix2 10) with 1024%R in HC. lra. }
    assert (l <= 53) as Hl53.
    { destruct (N.le_gt_cases l 53) as [H|H]; [exact H|exfalso].
      assert (2 ^ 54 <= 2 ^ l) by (apply N.pow_le_mono_r; [clear; lia|clear - H; lia]). clear - HM HL H0. lia. }
    assert (10 <= l) as Hl10.
    { destruct (N.le_gt_cases 10 l) as [H|H]; [exact H|exfalso].
      assert (bpow radix2 (Z.of_N l) <= bpow radix2 9)%R as HC by (apply bpow_le; lia). change (bpow radix2 9) with 512%R in HC. lra. }
    split; [split; assumption|]. split; [clear; lia|]. split; [reflexivity|]. split; [exact HM|]. split.
    + rewrite fits_fin by exact FO. replace (Z.of_N (4 * 2 ^ l * 8 * 1)) with (32 * Z.of_N (2 ^ l))%Z by (clear; lia).
      rewrite mult_IZR, EP. lra.
    + left. split; [reflexivity|]. rewrite fits_fin by exact FO.
      replace (Z.of_N (4 * (2 * 2 ^ l) * 8 * 1)) with (64 * Z.of_N (2 ^ l))%Z by (clear; lia). rewrite mult_IZR, EP. lra.
  - (* memory limit binds *)
    pose proof (proj1 (not_lt_at_most O _ (at_most_number _ _ HO) FL5) ED) as HOL. rewrite EL5 in HOL. clear ED.
    pose proof (N.div_mod L 1024 ltac:(lia)) as DM. pose proof (N.mod_lt L 1024 ltac:(lia)) as MM.
    remember (L / 1024) as m eqn:Em. remember (L mod 1024) as m' eqn:Em'. clear Em Em'.
    assert (1024 <= m <= 2 ^ 54 - 2) as Hm by lia.
    destruct (of_N_spec m) as [Fm Emm]; [lia|].
    assert (1024 <= B2R (of_N m))%R as Hm1.
    { rewrite Emm. rewrite <- (rnd_fmt 1024) by (apply (fmt_int 1024); lia). apply rnd_le. apply IZR_le. lia. }
    assert (B2R (of_N m) < bpow radix2 54)%R as Hm2.
    { apply Rle_lt_trans with (IZR (2 ^ 53 - 1) * bpow radix2 1)%R.
      - rewrite Emm. rewrite <- (rnd_fmt (IZR (2 ^ 53 - 1) * bpow radix2 1)) by (apply fmt_IZR; lia). apply rnd_le.
        change (bpow radix2 1) with (IZR 2). rewrite <- mult_IZR. apply IZR_le. lia.
      - change (bpow radix2 54) with (bpow radix2 (53 + 1)). rewrite bpow_plus. apply Rmult_lt_compat_r; [apply bpow_gt_0|].
        rewrite <- pow2_bpow by lia. apply IZR_lt. lia. }
    destruct (ddiv_pow2 (of_N m) 1) as [[E _]|(_ & F1 & E1)]; [lia| |rewrite E in Fm; discriminate|].
    { right. split; [exact Fm|]. pose proof bpow_m900. lra. }
    change (bpow radix2 (Z.of_N 1)) with 2%R in E1.
    assert (bpow radix2 54 < bpow radix2 63)%R as Hb by (apply bpow_lt; lia).
    destruct (pick_logN_real (ddiv (of_N m) (of_N (2 ^ 1))) (B2R (of_N m)) F1 E1) as (Hl & Hlo & Hhi); [lra|lra|].
    set (l := pick_logN 63 1 _) in *.
    pose proof (pow2_N l) as EP.
    assert (l < 54) as Hl54.
    { destruct (N.lt_ge_cases l 54) as [H|H]; [exact H|exfalso].
      assert (bpow radix2 54 <= bpow radix2 (Z.of_N l))%R by (apply bpow_le; lia). lra. }
    (* 2^l <= m < 2 * 2^l *)
    assert (2 ^ l <= m) as HN1.
    { destruct (N.le_gt_cases (2 ^ l) m) as [H|H]; [exact H|exfalso].
      assert (2 ^ l <= 2 ^ 53) as Hp by (apply N.pow_le_mono_r; lia).
      destruct (of_N_exact m) as [_ EX]; [lia|]. rewrite EX, <- EP in Hlo. apply le_IZR in Hlo. lia. }
    assert (m < 2 * 2 ^ l) as HN2.
    { destruct (N.lt_ge_cases m (2 * 2 ^ l)) as [H|H]; [exact H|exfalso].
      assert (bpow radix2 (1 + Z.of_N l) <= B2R (of_N m))%R as HC.
      { rewrite Emm. rewrite <- (rnd_fmt (bpow radix2 (1 + Z.of_N l))) by (apply fmt_bpow; lia). apply rnd_le.
        rewrite bpow_plus, <- EP. change (bpow radix2 1) with (IZR 2). rewrite <- mult_IZR. apply IZR_le. lia. }
      rewrite bpow_plus in HC. change (bpow radix2 1) with 2%R in HC. lra. }
    assert (10 <= l) as Hl10.
    { destruct (N.le_gt_cases 10 l) as [H|H]; [exact H|exfalso].
      assert (2 ^ l <= 2 ^ 9) by (apply N.pow_le_mono_r; lia). lia. }
    rewrite shiftl_pow2 by lia.
    assert (at_most (32 * bpow radix2 (Z.of_N l)) O) as HO32.
    { revert HOL. apply at_most_le.
      assert (bpow radix2 (10 + Z.of_N l) <= B2R (of_N L))%R as HC.
      { rewrite EL. rewrite <- (rnd_fmt (bpow radix2 (10 + Z.of_N l))) by (apply fmt_bpow; lia). apply rnd_le.
        rewrite bpow_plus, <- EP. change (bpow radix2 10) with (IZR 1024). rewrite <- mult_IZR. apply IZR_le. lia. }
      rewrite bpow_plus in HC. change (bpow radix2 10) with 1024%R in HC. lra. }
    pose proof (bpow_gt_0 radix2 (Z.of_N l)) as Hbl.
    assert (exists q, to_uint 32 (if dlt (of_N 0x3fffffff) (ddiv (ddiv O (of_N (2 ^ 2))) (of_N (2 ^ l)))
        then of_N 0x3fffffff else ddiv (ddiv O (of_N (2 ^ 2))) (of_N (2 ^ l))) = Ok q /\ 8 <= q < 2 ^ 30 /\
        at_most (IZR (Z.of_N q) * 4 * bpow radix2 (Z.of_N l)) O /\
        (q = 2 ^ 30 - 1 \/ (is_finite O = true /\ (B2R O < (IZR (Z.of_N q) + 1) * 4 * bpow radix2 (Z.of_N l))%R))) as (q & -> & Hq & Hq1 & Hq2).
    { destruct (of_N_exact 0x3fffffff) as [Fc Ec]; [lia|]. change (IZR (Z.of_N 1073741823)) with 1073741823%R in Ec.
      assert (exists n, to_uint 32 (of_N 0x3fffffff) = Ok n /\ n = 2 ^ 30 - 1) as (nc & Ecc & Enc).
      { exists 0x3fffffff. split; [vm_compute; reflexivity|reflexivity]. }
      destruct (ddiv_pow2 O 2) as [[EO E2]|(FO & F2 & E2)]; [lia|exact HO9| |].
      - rewrite E2. destruct (ddiv_pow2 dinf l) as [[_ E3]|(E3 & _)]; [lia|left; reflexivity| |discriminate].
        rewrite E3, lt_inf by exact Fc. exists nc. rewrite Ecc. split; [reflexivity|]. split; [clear - Enc; lia|]. split; [left; exact EO|left; exact Enc].
      - change (bpow radix2 (Z.of_N 2)) with 4%R in E2.
        destruct HO32 as [EO|[_ HO32]]; [subst O; discriminate|].
        assert (1024 <= bpow radix2 (Z.of_N l))%R as Hbl2 by (change 1024%R with (bpow radix2 10); apply bpow_le; clear - Hl10; lia).
        destruct (ddiv_pow2 (ddiv O (of_N (2 ^ 2))) l) as [[E _]|(_ & F3 & E3)]; [clear - Hl; lia| |rewrite E in F2; discriminate|].
        { right. split; [exact F2|]. rewrite E2. pose proof bpow_m900. nra. }
        rewrite E2 in E3. set (y := ddiv (ddiv O (of_N (2 ^ 2))) (of_N (2 ^ l))) in *.
        assert (B2R O = B2R y * 4 * bpow radix2 (Z.of_N l))%R as EOy by (rewrite E3; field; lra).
        assert (8 <= B2R y)%R as Hy8 by nra.
        destruct (dlt (of_N 0x3fffffff) y) eqn:ED.
        + exists nc. rewrite Ecc. split; [reflexivity|]. split; [clear - Enc; lia|]. split; [|left; exact Enc].
          right. split; [exact FO|]. rewrite dlt_fin, Ec in ED by assumption.
          destruct (Rlt_bool_spec 1073741823 (B2R y)); [|discriminate]. rewrite Enc. change (IZR (Z.of_N (2 ^ 30 - 1))) with 1073741823%R. nra.
        + rewrite dlt_fin, Ec in ED by assumption. destruct (Rlt_bool_spec 1073741823 (B2R y)) as [|Hy]; [discriminate|].
          destruct (to_uint_floor 32 y F3) as (n & En & Hn & Hn2); [lra| |].
          { change (bpow radix2 (Z.of_N 32)) with 4294967296%R. lra. }
          exists n. rewrite En. split; [reflexivity|]. split; [|split].
          * split.
            -- assert (8 < Z.of_N n + 1)%Z as H8; [|clear - H8; lia]. apply lt_IZR. rewrite plus_IZR. lra.
            -- assert (Z.of_N n < 2 ^ 30)%Z as H8; [|clear - H8; lia]. apply lt_IZR. apply Rle_lt_trans with 1073741823%R; [lra|]. apply IZR_lt. reflexivity.
          * right. split; [exact FO|]. nra.
          * right. split; [exact FO|]. nra. }
    cbn [bind]. exists l, (q / 8). split; [reflexivity|].
    pose proof (N.div_mod q 8 ltac:(lia)) as DQ. pose proof (N.mod_lt q 8 ltac:(lia)) as MQ.
    remember (q / 8) as p eqn:Ep. remember (q mod 8) as p' eqn:Ep'. clear Ep Ep'.
    split; [split; [exact Hl10|clear - Hl54; lia]|]. split; [clear - DQ MQ Hq; lia|]. split; [clear - DQ MQ Hq; lia|].
    split; [clear - HN1 DM; lia|]. split.
    + revert Hq1. unfold fits. apply at_most_le. 
      replace (Z.of_N (4 * 2 ^ l * 8 * p)) with ((8 * Z.of_N p) * 4 * Z.of_N (2 ^ l))%Z by (clear; lia).
      rewrite !mult_IZR, EP. apply Rmult_le_compat_r; [lra|]. apply Rmult_le_compat_r; [lra|].
      rewrite <- mult_IZR. apply IZR_le. clear - DQ MQ; lia.
    + right. split; [clear - HN2 DM MM; lia|]. destruct Hq2 as [Hq2|[FO Hq2]]; [right; clear - DQ MQ Hq2; lia|left].
      rewrite fits_fin by exact FO. intros HC.
      replace (Z.of_N (4 * 2 ^ l * 8 * (p + 1))) with ((8 * Z.of_N (p + 1)) * 4 * Z.of_N (2 ^ l))%Z in HC by (clear; lia).
      rewrite !mult_IZR, EP in HC.
      assert (IZR (Z.of_N q) + 1 <= 8 * IZR (Z.of_N (p + 1)))%R as HI.
      { rewrite <- mult_IZR, <- plus_IZR. apply IZR_le. clear - DQ MQ. lia. }
      assert ((IZR (Z.of_N q) + 1) * 4 * bpow radix2 (Z.of_N l) <= 8 * IZR (Z.of_N (p + 1)) * 4 * bpow radix2 (Z.of_N l))%R as HF.
      { apply Rmult_le_compat_r; [lra|]. apply Rmult_le_compat_r; lra. }
      lra.
Qed.

(* ---------------- checkparams ------------------------------------------- *)
Lemma ddiv_number x y : is_nan x = false -> is_finite y = true -> (0 < B2R y)%R -> is_nan (ddiv x y) = false.
Proof.
  intros Hx Fy Hy. destruct (number_cases x Hx) as [Fx|[-> | ->]].
  - pose proof (Bdiv_correct 53 1024 _ _ mode_NE x y ltac:(lra)) as H. unfold ddiv.
    destruct (Rlt_bool (Rabs (rnd (B2R x / B2R y))) (bpow radix2 1024)).
    + destruct H as (_ & F & _). apply fin_nan. rewrite F. exact Fx.
    + destruct (Bdiv mode_NE x y) as [s|s| |s m e E]; try reflexivity. cbn in H.
      destruct (xorb (Bsign x) (Bsign y)); discriminate.
  - change (B754_infinity false) with dinf. rewrite inf_div by assumption. reflexivity.
  - pose proof (Bsign_pos y Fy Hy) as HS. destruct y as [s|s| |s m e E]; try discriminate Fy.
    + cbn in Hy. lra.
    + reflexivity.
Qed.
Lemma ddiv_upper' x y q : is_finite y = true -> (0 < B2R y)%R -> (bpow radix2 (-900) <= q <= bpow radix2 1000)%R ->
  at_most q (ddiv x y) -> at_most (q * B2R y / (1 + bpow radix2 (-53))) x.
Proof.
  intros Fy Hy Hq H. pose proof (bpow_gt_0 radix2 (-53)) as Hu. pose proof (bpow_gt_0 radix2 (-900)) as Hu9.
  destruct (ddiv_upper x y q Fy Hy Hq H) as [HA|[Fx HA]].
  - revert HA. apply at_most_le. apply Rmult_le_reg_r with (1 + bpow radix2 (-53))%R; [lra|].
    unfold Rdiv. rewrite Rmult_assoc, Rinv_l by lra. assert (0 < q * B2R y)%R by (apply Rmult_lt_0_compat; lra). nra.
  - right. split; [exact Fx|]. apply Rmult_le_reg_r with (1 + bpow radix2 (-53))%R; [lra|].
    unfold Rdiv. rewrite Rmult_assoc, Rinv_l by lra. lra.
Qed.
Lemma toobig_spec L l r : l <= 63 -> 0 < r -> ((L / 2 ^ l) / r <? 128 = true <-> L < 128 * 2 ^ l * r).
Proof.
  intros Hl Hr. pose proof (N.pow_nonzero 2 l ltac:(lia)) as Hp. rewrite N.ltb_lt, N.div_div by lia.
  split; intros H.
  - pose proof (N.div_mod L (2 ^ l * r) ltac:(lia)) as D. pose proof (N.mod_lt L (2 ^ l * r) ltac:(lia)) as Mo.
    remember (L / (2 ^ l * r)) as a. remember (L mod (2 ^ l * r)) as b. clear Heqa Heqb. nia.
  - apply N.div_lt_upper_bound; lia.
Qed.
Definition cpu_too_slow (O : double) (l r p : N) : bool :=
  dlt (ddiv (ddiv (ddiv O (of_N (2 ^ l))) (of_N r)) (of_N p)) (of_N 4).
Lemma small_pos n : 0 < n -> n < 2 ^ 30 -> is_finite (of_N n) = true /\ B2R (of_N n) = IZR (Z.of_N n) /\ (1 <= IZR (Z.of_N n) <= bpow radix2 30)%R.
Proof.
  intros H1 H2. destruct (of_N_exact n) as [F E]; [lia|]. repeat split; auto.
  - apply (IZR_le 1). lia.
  - rewrite <- pow2_bpow by lia. apply IZR_le. lia.
Qed.
Lemma rp_bounds r p : 0 < r -> 0 < p -> r * p < 2 ^ 30 -> r < 2 ^ 30 /\ p < 2 ^ 30.
Proof. intros. split; nia. Qed.
Lemma fits_not_slow O l r p : l <= 63 -> 0 < r -> 0 < p -> r * p < 2 ^ 30 -> fits (4 * 2 ^ l * r * p) O ->
  cpu_too_slow O l r p = false.
Proof.
  intros Hl Hr Hp Hrp HF. destruct (rp_bounds r p Hr Hp Hrp) as [Hr2 Hp2].
  destruct (of_N_pow2 l) as [FN EN]; [lia|]. destruct (small_pos r Hr Hr2) as (Fr & Er & Br). destruct (small_pos p Hp Hp2) as (Fp & Epp & Bp).
  destruct (of_N_exact 4) as [F4 E4]; [lia|]. change (IZR (Z.of_N 4)) with 4%R in E4.
  pose proof (bpow_gt_0 radix2 (Z.of_N l)) as Hb.
  unfold fits in HF. replace (Z.of_N (4 * 2 ^ l * r * p)) with (Z.of_N (4 * r * p) * Z.of_N (2 ^ l))%Z in HF by (clear; lia).
  rewrite mult_IZR, pow2_N, <- EN in HF.
  assert (0 < IZR (Z.of_N (4 * r * p)))%R as P1 by (apply (IZR_lt 0); clear - Hr Hp; nia).
  apply ddiv_lower in HF; [|exact FN|rewrite EN; lra|apply fmt_int; clear - Hrp; lia|exact P1].
  replace (Z.of_N (4 * r * p)) with (Z.of_N (4 * p) * Z.of_N r)%Z in HF by (clear; lia). rewrite mult_IZR, <- Er in HF.
  assert (0 < IZR (Z.of_N (4 * p)))%R as P2 by (apply (IZR_lt 0); clear - Hp; lia).
  apply ddiv_lower in HF; [|exact Fr|rewrite Er; lra|apply fmt_int; clear - Hp2; lia|exact P2].
  replace (Z.of_N (4 * p)) with (4 * Z.of_N p)%Z in HF by (clear; lia). rewrite mult_IZR, <- Epp in HF.
  apply ddiv_lower in HF; [|exact Fp|rewrite Epp; lra|apply (fmt_int 4); clear; lia|lra].
  unfold cpu_too_slow. apply not_lt_at_most; [exact (at_most_number _ _ HF)|exact F4|]. rewrite E4. exact HF.
Qed.
Lemma not_slow_fits O l r p : is_nan O = false -> l <= 63 -> 0 < r -> 0 < p -> r * p < 2 ^ 30 ->
  cpu_too_slow O l r p = false ->
  at_most (IZR (Z.of_N (4 * 2 ^ l * r * p)) / (1 + bpow radix2 (-51))) O.
Proof.
  intros HO Hl Hr Hp Hrp HS. destruct (rp_bounds r p Hr Hp Hrp) as [Hr2 Hp2].
  destruct (of_N_pow2 l) as [FN EN]; [lia|]. destruct (small_pos r Hr Hr2) as (Fr & Er & Br). destruct (small_pos p Hp Hp2) as (Fp & Epp & Bp).
  destruct (of_N_exact 4) as [F4 E4]; [lia|]. change (IZR (Z.of_N 4)) with 4%R in E4.
  assert (1 <= bpow radix2 (Z.of_N l) <= bpow radix2 63)%R as Hb.
  { split; [change 1%R with (bpow radix2 0); apply bpow_le; lia|apply bpow_le; lia]. }
  unfold cpu_too_slow in HS.
  assert (is_nan (ddiv (ddiv (ddiv O (of_N (2 ^ l))) (of_N r)) (of_N p)) = false) as HN.
  { apply ddiv_number; [|exact Fp|rewrite Epp; lra]. apply ddiv_number; [|exact Fr|rewrite Er; lra].
    apply ddiv_number; [exact HO|exact FN|rewrite EN; lra]. }
  apply not_lt_at_most in HS; [|exact HN|exact F4]. rewrite E4 in HS.
  change (bpow radix2 30) with 1073741824%R in *.
  assert (forall x y q, is_finite y = true -> (0 < B2R y)%R -> (/ 2 <= q)%R -> (q <= 4611686018427387904)%R ->
    at_most q (ddiv x y) -> at_most (q * B2R y / (1 + bpow radix2 (-53))) x) as HU.
  { intros x y q Fy Hy Q1 Q2. apply ddiv_upper'; auto. split.
    - assert (bpow radix2 (-900) <= bpow radix2 (-1))%R as HX by (apply bpow_le; lia). change (bpow radix2 (-1)) with (/ 2)%R in HX. lra.
    - assert (bpow radix2 62 <= bpow radix2 1000)%R as HX by (apply bpow_le; lia). change (bpow radix2 62) with 4611686018427387904%R in HX. lra. }
  assert (0 < bpow radix2 (-53) <= / 8)%R as Hu.
  { split; [apply bpow_gt_0|]. change (/ 8)%R with (bpow radix2 (-3)). apply bpow_le. lia. }
  assert (bpow radix2 (-51) = 4 * bpow radix2 (-53))%R as Eu by (change (-51)%Z with (2 + -53)%Z; rewrite bpow_plus; reflexivity).
  rewrite Eu. clear Eu. set (u := bpow radix2 (-53)) in *. clearbody u.
  replace (Z.of_N (4 * 2 ^ l * r * p)) with (4 * Z.of_N (2 ^ l) * Z.of_N r * Z.of_N p)%Z by (clear; lia).
  rewrite !mult_IZR, pow2_N.
  set (N_ := bpow radix2 (Z.of_N l)) in *. set (rr := IZR (Z.of_N r)) in *. set (pp := IZR (Z.of_N p)) in *. clearbody N_ rr pp.
  assert (forall a, a / (1 + u) * (1 + u) = a)%R as HI by (intros a; field; lra).
  apply HU in HS; [|exact Fp|rewrite Epp; lra|lra|lra]. rewrite Epp in HS.
  set (q2 := (4 * pp / (1 + u))%R) in *. assert (q2 * (1 + u) = 4 * pp)%R as Eq2 by apply HI. clearbody q2.
  assert (1 <= q2 <= 4294967296)%R as Q2 by (clear - Eq2 Hu Bp; nra).
  apply HU in HS; [|exact Fr|rewrite Er; lra|lra|lra]. rewrite Er in HS.
  set (q3 := (q2 * rr / (1 + u))%R) in *. assert (q3 * (1 + u) = q2 * rr)%R as Eq3 by apply HI. clearbody q3.
  assert (q2 * rr <= 4294967296 * 1073741824)%R as Q3' by (apply Rmult_le_compat; lra).
  assert (/ 2 <= q3 <= 4611686018427387904)%R as Q3 by (clear - Eq3 Hu Br Q2 Q3'; nra).
  apply HU in HS; [|exact FN|rewrite EN; lra|lra|lra]. rewrite EN in HS.
  revert HS. apply at_most_le.
  apply Rmult_le_reg_r with (1 + 4 * u)%R; [lra|]. unfold Rdiv at 1. rewrite Rmult_assoc, Rinv_l by lra. rewrite Rmult_1_r.
  set (q4 := (q3 * N_ / (1 + u))%R). assert (q4 * (1 + u) = q3 * N_)%R as Eq4 by apply HI.
  assert (0 < q4)%R as Hq4. { assert (0 < q3 * N_)%R by (apply Rmult_lt_0_compat; lra). clear - Eq4 H Hu. nra. }
  assert (4 * N_ * rr * pp = q4 * ((1 + u) * (1 + u) * (1 + u)))%R as ->.
  { replace (q4 * ((1 + u) * (1 + u) * (1 + u)))%R with (q4 * (1 + u) * (1 + u) * (1 + u))%R by ring. rewrite Eq4.
    replace (q3 * N_ * (1 + u) * (1 + u))%R with (q3 * (1 + u) * N_ * (1 + u))%R by ring. rewrite Eq3.
    replace (q2 * rr * N_ * (1 + u))%R with (q2 * (1 + u) * rr * N_)%R by ring. rewrite Eq2. ring. }
  apply Rmult_le_compat_l; [lra|]. clear - Hu. nra.
Qed.
