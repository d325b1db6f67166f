From Coq Require Import Reals Lra.
From Flocq Require Import Core IEEE754.BinarySingleNaN.
From Verif Require Import Base SpecBytes M_smix P_scrypt P_scrypt_ref M_double SpecDouble P_double M_memlimit P_params.

Lemma frac_range f : dlt d0 f && dle f d1 = true -> is_finite f = true /\ (0 < B2R f <= 1)%R.
Proof.
  intros H. apply andb_prop in H. destruct H as [H1 H2].
  destruct (of_N_exact 1) as [F1 E1]; [lia|]. change (IZR (Z.of_N 1)) with 1%R in E1. fold d1 in F1, E1.
  assert (is_finite f = true) as F.
  { clear E1. revert F1 H2. generalize d1. intros d Fd H2. destruct f as [s|[|]| |s m e E]; try reflexivity; try discriminate H1.
    destruct d as [[|]|[|]| |[|] m e E]; try discriminate Fd; discriminate H2. }
  rewrite dlt_fin in H1 by (auto; reflexivity). rewrite dle_fin, E1 in H2 by auto.
  split; [exact F|]. change (B2R d0) with 0%R in H1.
  destruct (Rlt_bool_spec 0 (B2R f)); [|discriminate]. destruct (Rle_bool_spec (B2R f) 1); [|discriminate]. lra.
Qed.
Lemma dmul_frac f m : is_finite f = true -> (0 < B2R f <= 1)%R -> m <= 2 ^ 64 ->
  is_finite (dmul f (of_N m)) = true /\ B2R (dmul f (of_N m)) = rnd (B2R f * B2R (of_N m)) /\
  (0 <= B2R (dmul f (of_N m)))%R.
Proof.
  intros F Hf Hm. destruct (of_N_spec m Hm) as [Fm Em].
  assert (0 <= B2R (of_N m) <= bpow radix2 64)%R as Hb.
  { rewrite Em. split.
    - rewrite <- (rnd_fmt 0 fmt_0). apply rnd_le. apply (IZR_le 0). lia.
    - rewrite <- (rnd_fmt (bpow radix2 64)) by (apply fmt_bpow; lia). apply rnd_le. rewrite <- pow2_bpow by lia. apply IZR_le. lia. }
  unfold dmul. pose proof (Bmult_correct 53 1024 _ _ mode_NE f (of_N m)) as HM.
  rewrite Rlt_bool_true in HM.
  - destruct HM as (H1 & H2 & _). rewrite H2, F, Fm. repeat split; [exact H1|]. rewrite H1.
    rewrite <- (rnd_fmt 0 fmt_0) at 1. apply rnd_le. nra.
  - apply Rle_lt_trans with (bpow radix2 64); [|apply bpow_lt; lia].
    apply abs_round_le_generic; try typeclasses eauto; [apply fmt_bpow; lia|]. rewrite Rabs_pos_eq; nra.
Qed.
(** A double below 2^64 is at most 2^64 - 2048. *)
Lemma below_2_64 x : fmt x -> (x < bpow radix2 64)%R -> (x <= bpow radix2 64 - 2048)%R.
Proof.
  intros Hx H. pose proof (pred_ge_gt radix2 fexp53 x (bpow radix2 64) Hx (fmt_bpow 64 ltac:(lia)) H) as HP.
  rewrite pred_bpow in HP. change (bpow radix2 (fexp53 64)) with 2048%R in HP. exact HP.
Qed.
Lemma below_1 x : fmt x -> (x < 1)%R -> (x <= 1 - bpow radix2 (-53))%R.
Proof.
  intros Hx H. change 1%R with (bpow radix2 0) in H.
  pose proof (pred_ge_gt radix2 fexp53 x (bpow radix2 0) Hx (fmt_bpow 0 ltac:(lia)) H) as HP.
  rewrite pred_bpow in HP. change (bpow radix2 (fexp53 0)) with (bpow radix2 (-53)) in HP. exact HP.
Qed.
Lemma to_uint_inv bits x n : to_uint bits x = Ok n ->
  is_finite x = true /\ n < 2 ^ bits /\ (0 <= B2R x -> IZR (Z.of_N n) <= B2R x < IZR (Z.of_N n) + 1)%R.
Proof.
  unfold to_uint. destruct (is_finite x) eqn:F; [|discriminate]. cbn [andb].
  destruct (Z.leb_spec 0 (Btrunc x)) as [H0|]; [|discriminate]. destruct (Z.ltb_spec (Btrunc x) (2 ^ Z.of_N bits)) as [H1|]; [|discriminate].
  cbn [andb]. intros E. injection E as <-. split; [reflexivity|]. split.
  - assert (Z.of_N (2 ^ bits) = (2 ^ Z.of_N bits)%Z) by apply N2Z.inj_pow. lia.
  - intros Hx. pose proof (Btrunc_correct 53 1024 prec_lt_emax_53 x) as HT. rewrite round_FIX_IZR in HT. apply eq_IZR in HT.
    rewrite Ztrunc_floor in HT by exact Hx. rewrite Z2N.id by lia. rewrite HT. split; [apply Zfloor_lb|apply Zfloor_ub].
Qed.

(** The smallest limit the computation is based on. *)
Definition smallest (szb : N) (usermem memsize sysinfo rlimit sysconf : N) : N :=
  minl (minl (minl (minl (minl (SIZE_MAX szb) usermem) memsize) sysinfo) rlimit) sysconf.
Lemma minl_le a b : minl a b <= a /\ minl a b <= b /\ (minl a b = a \/ minl a b = b).
Proof. unfold minl. destruct (N.ltb_spec b a); lia. Qed.
Lemma smallest_le szb u a b c d :
  let m := smallest szb u a b c d in m <= SIZE_MAX szb /\ m <= u /\ m <= a /\ m <= b /\ m <= c /\ m <= d /\
  (m = SIZE_MAX szb \/ m = u \/ m = a \/ m = b \/ m = c \/ m = d).
Proof.
  cbv zeta. unfold smallest.
  pose proof (minl_le (SIZE_MAX szb) u) as (A1 & A2 & A3). set (x1 := minl (SIZE_MAX szb) u) in *.
  pose proof (minl_le x1 a) as (B1 & B2 & B3). set (x2 := minl x1 a) in *.
  pose proof (minl_le x2 b) as (C1 & C2 & C3). set (x3 := minl x2 b) in *.
  pose proof (minl_le x3 c) as (D1 & D2 & D3). set (x4 := minl x3 c) in *.
  pose proof (minl_le x4 d) as (E1 & E2 & E3). set (x5 := minl x4 d) in *.
  clearbody x1 x2 x3 x4 x5. repeat split; try lia.
Qed.
Definition adjusted (szb usermem sysconf : N) : N :=
  if negb (sysconf =? SIZE_MAX szb) then if usermem <? sysconf / 2 then sysconf / 2 else usermem else usermem.
Definition final_mem (maxmem avail : N) : N :=
  N.max 1048576 (if (0 <? maxmem) && (maxmem <? avail) then maxmem else avail).

Lemma memtouse_inv szb e maxmem f r : memtouse szb e maxmem f = Ok r ->
  is_finite f = true /\ (0 < B2R f <= 1)%R /\
  (r = None \/ exists usermem memsize sysinfo rlimit sysconf avail,
     limit_or_max szb (memlimit_sysctl_hw szb) (me_usermem e) = Some usermem /\
     limit_or_max szb (memlimit_sysctl_hw szb) (me_memsize e) = Some memsize /\
     limit_or_max szb (memlimit_sysinfo szb) (me_sysinfo e) = Some sysinfo /\
     memlimit_rlimit szb e = Some rlimit /\
     limit_or_max szb (memlimit_sysconf szb) (me_sysconf e) = Some sysconf /\
     to_uint szb (dmul f (of_N (smallest szb (adjusted szb usermem sysconf) memsize sysinfo rlimit sysconf))) = Ok avail /\
     r = Some (final_mem maxmem avail)).
Proof.
  unfold memtouse. destruct (dlt d0 f && dle f d1) eqn:EF; [|discriminate]. cbn [assert_ bind].
  destruct (frac_range f EF) as [F R0]. intros H. split; [exact F|]. split; [exact R0|].
  destruct (limit_or_max szb (memlimit_sysctl_hw szb) (me_usermem e)) as [usermem|]; [|left; congruence].
  destruct (limit_or_max szb (memlimit_sysctl_hw szb) (me_memsize e)) as [memsize|]; [|left; congruence].
  destruct (limit_or_max szb (memlimit_sysinfo szb) (me_sysinfo e)) as [sysinfo|]; [|left; congruence].
  destruct (memlimit_rlimit szb e) as [rlimit|]; [|left; congruence].
  destruct (limit_or_max szb (memlimit_sysconf szb) (me_sysconf e)) as [sysconf|]; [|left; congruence].
  right. exists usermem, memsize, sysinfo, rlimit, sysconf. cbv zeta in H. unfold smallest, adjusted.
  destruct (to_uint szb _) as [avail| |]; cbn [bind] in H; try discriminate H.
  exists avail. repeat split; auto. injection H as <-. f_equal. unfold final_mem.
  set (y := if (0 <? maxmem) && (maxmem <? avail) then maxmem else avail). destruct (N.ltb_spec y 1048576); lia.
Qed.
Lemma size_max_lt szb : size_bits szb -> SIZE_MAX szb < 2 ^ szb /\ 2 ^ szb <= 2 ^ 64.
Proof. intros [-> | ->]; vm_compute; split; congruence. Qed.
Lemma memtouse_range szb e maxmem f L : size_bits szb -> memtouse szb e maxmem f = Ok (Some L) ->
  2 ^ 20 <= L <= 2 ^ 64 - 2048 /\ L < 2 ^ szb.
Proof.
  intros Hs H. apply memtouse_inv in H. destruct H as (F & R0 & [H|H]); [discriminate|].
  destruct H as (u & a & b & c & d & avail & _ & _ & _ & _ & _ & ET & E). injection E as ->.
  destruct (smallest_le szb (adjusted szb u d) a b c d) as (H1 & _).
  destruct (size_max_lt szb Hs) as [H2 H3].
  destruct (dmul_frac f (smallest szb (adjusted szb u d) a b c d) F R0) as (DF & DE & DP); [lia|].
  apply to_uint_inv in ET. destruct ET as (_ & HA & HR). specialize (HR DP).
  assert (avail <= 2 ^ 64 - 2048) as HB.
  { assert (avail < 2 ^ 64) as HA' by lia. 
    destruct (Rlt_or_le (B2R (dmul f (of_N (smallest szb (adjusted szb u d) a b c d)))) (bpow radix2 64)) as [HL|HL].
    - pose proof (below_2_64 _ (fmt_B2R _) HL) as HX. rewrite <- pow2_bpow in HX by lia.
      assert (IZR (Z.of_N avail) <= IZR (2 ^ 64 - 2048))%R as HC by (rewrite minus_IZR; lra). apply le_IZR in HC. lia.
    - exfalso. rewrite <- pow2_bpow in HL by lia.
      assert (IZR (2 ^ 64) < IZR (Z.of_N avail + 1))%R as HC by (rewrite plus_IZR; lra). apply lt_IZR in HC. lia. }
  unfold final_mem. assert (2 ^ 20 < 2 ^ szb) by (destruct Hs as [-> | ->]; reflexivity).
  destruct ((0 <? maxmem) && (maxmem <? avail)) eqn:EM; [|lia].
  apply andb_prop in EM. destruct EM as [_ EM]. apply N.ltb_lt in EM. lia.
Qed.
(** The cast is defined unless the whole of a (nearly) 2^64-byte limit is asked for. *)
Lemma memtouse_defined szb e maxmem f : size_bits szb -> is_finite f = true -> (0 < B2R f <= 1)%R ->
  (szb = 32 \/ (B2R f < 1)%R) -> exists r, memtouse szb e maxmem f = Ok r.
Proof.
  intros Hs F R0 Hc. unfold memtouse.
  assert (dlt d0 f && dle f d1 = true) as ->.
  { destruct (of_N_exact 1) as [F1 E1]; [lia|]. change (IZR (Z.of_N 1)) with 1%R in E1. fold d1 in F1, E1.
    rewrite dlt_fin by (auto; reflexivity). rewrite dle_fin, E1 by auto. change (B2R d0) with 0%R.
    rewrite Rlt_bool_true by lra. rewrite Rle_bool_true by lra. reflexivity. }
  cbn [assert_ bind].
  destruct (limit_or_max szb (memlimit_sysctl_hw szb) (me_usermem e)) as [u|]; [|eauto].
  destruct (limit_or_max szb (memlimit_sysctl_hw szb) (me_memsize e)) as [a|]; [|eauto].
  destruct (limit_or_max szb (memlimit_sysinfo szb) (me_sysinfo e)) as [b|]; [|eauto].
  destruct (memlimit_rlimit szb e) as [c|]; [|eauto].
  destruct (limit_or_max szb (memlimit_sysconf szb) (me_sysconf e)) as [d|]; [|eauto].
  cbv zeta. fold (adjusted szb u d). fold (smallest szb (adjusted szb u d) a b c d).
  destruct (smallest_le szb (adjusted szb u d) a b c d) as (H1 & _).
  set (m := smallest szb (adjusted szb u d) a b c d) in *. clearbody m.
  destruct (size_max_lt szb Hs) as [H2 H3].
  destruct (dmul_frac f m F R0) as (DF & DE & DP); [lia|].
  destruct (of_N_spec m) as [Fm Em]; [lia|].
  assert (0 <= B2R (of_N m))%R as Hm0.
  { rewrite Em. rewrite <- (rnd_fmt 0 fmt_0) at 1. apply rnd_le. apply (IZR_le 0). lia. }
  destruct (to_uint_floor szb (dmul f (of_N m)) DF DP) as (n & -> & _); [|rewrite bind_Ok; eauto].
  rewrite DE. destruct Hs as [-> | ->].
  - apply Rle_lt_trans with (IZR (2 ^ 32 - 1)).
    + rewrite <- (rnd_fmt (IZR (2 ^ 32 - 1))) by (apply fmt_int; lia). apply rnd_le.
      destruct (of_N_exact m) as [_ EX]; [change (SIZE_MAX 32) with 4294967295 in H1; lia|]. rewrite EX in *.
      assert (IZR (Z.of_N m) <= IZR (2 ^ 32 - 1))%R by (apply IZR_le; change (SIZE_MAX 32) with 4294967295 in H1; lia). nra.
    + change (bpow radix2 (Z.of_N 32)) with (IZR (2 ^ 32)). apply IZR_lt. lia.
  - destruct Hc as [Hc|Hc]; [discriminate|].
    pose proof (below_1 _ (fmt_B2R f) Hc) as HB.
    assert (B2R (of_N m) <= bpow radix2 64)%R as Hm1.
    { rewrite Em. rewrite <- (rnd_fmt (bpow radix2 64)) by (apply fmt_bpow; lia). apply rnd_le. rewrite <- pow2_bpow by lia. apply IZR_le. lia. }
    apply Rle_lt_trans with (IZR (2 ^ 53 - 1) * bpow radix2 11)%R.
    + rewrite <- (rnd_fmt (IZR (2 ^ 53 - 1) * bpow radix2 11)) by (apply fmt_IZR; lia). apply rnd_le.
      apply Rle_trans with ((1 - bpow radix2 (-53)) * bpow radix2 64)%R.
      * apply Rmult_le_compat; lra.
      * rewrite Rmult_minus_distr_r, <- bpow_plus, Rmult_1_l. change (-53 + 64)%Z with 11%Z.
        change (bpow radix2 64) with (bpow radix2 (53 + 11)). rewrite bpow_plus, <- (pow2_bpow 53), minus_IZR by lia. lra.
    + change (Z.of_N 64) with (53 + 11)%Z. rewrite bpow_plus. apply Rmult_lt_compat_r; [apply bpow_gt_0|].
      rewrite <- pow2_bpow by lia. apply IZR_lt. lia.
Qed.
(** Rounded products with a fixed fraction are monotone. *)
Lemma dmul_frac_mono f m v : is_finite f = true -> (0 < B2R f <= 1)%R -> m <= v -> v <= 2 ^ 64 ->
  (B2R (dmul f (of_N m)) <= B2R (dmul f (of_N v)))%R.
Proof.
  intros F R0 H Hv. destruct (dmul_frac f m F R0) as (_ & -> & _); [lia|]. destruct (dmul_frac f v F R0) as (_ & -> & _); [lia|].
  apply rnd_le. pose proof (of_N_mono m v H Hv). nra.
Qed.
