(** Properties C13 - C18 and C45: parameter choice and limit checks. *)
From Coq Require Import Reals Lra.
From Flocq Require Import Core IEEE754.BinarySingleNaN.
From Verif Require Import Base SpecBytes SpecSHA SpecScrypt SpecScryptAPI SpecDouble M_endian P_endian M_sha256_tr M_simd M_sha256_hw M_sha256 M_smix M_aes_hw M_aesctr P_scrypt P_scrypt_ref M_scrypt_sel
  P_scrypt_sel Prop_scrypt M_machine M_double P_double M_memlimit P_memlimit M_cpuperf P_cpuperf M_params P_params M_humansize.

(** ** The speed estimate *)
Definition alloc_good : alloc_env := mk_alloc true true true true.
(** An iteration whose allocations all succeed. *)
Definition iter_allocs (it : perf_iter) : Prop := it_env2 it = alloc_good /\ it_env it = alloc_good.
(** Elapsed time from [st] to a reading, as a double; not available if the clock fails. *)
Definition elapsed (cfg : clk_cfg) (st : Z * Z) (c : clock_read) (d : double) : Prop :=
  getclockdiff cfg st c = Ok (Some d).

Section Perf.
  Context (M : machine) (cfg : clk_cfg).
  Hypothesis Hs : size_bits (m_szb M).

  Lemma perf_scrypt_ok sst it lg : 1 <= lg <= 10 -> iter_allocs it ->
    exists c, perf_scrypt M sst it (2 ^ lg) = Ok (true, Some c).
  Proof.
    intros Hlg (H2 & H3). unfold perf_scrypt, m_crypto_scrypt, crypto_scrypt.
    cbn [k_env k_env1 k_env2 k_passwd k_salt k_N k_r k_p k_buf k_buflen].
    assert (exists c, match sst with Some c => Ok c | None =>
      selectsmix (m_szb M) (m_sha M) (m_junk M) (m_sse2_built M) (m_sse2_cpu M) crypto_scrypt_smix_sse2 crypto_scrypt_smix (it_env1 it) (it_env2 it) end = Ok c) as [c ->].
    { destruct sst as [c|]; [eauto|].
      apply (first_select (m_szb M) (m_sha M) (m_junk M) (m_sse2_built M) (m_sse2_cpu M)
        (mk_call (it_env1 it) (it_env2 it) (it_env it) [] [] 16 1 1 [] 0) Hs). exact H2. }
    rewrite bind_Ok. rewrite H3. unfold alloc_good.
    rewrite crypto_scrypt_internal_exact; auto using routine_correct; try lia.
    - rewrite !bind_Ok. eauto.
    - assert (2 ^ lg <= 2 ^ 10) by (apply N.pow_le_mono_r; lia).
      assert (2 ^ 32 <= 2 ^ m_szb M) by (destruct Hs as [-> | ->]; lia).
      constructor; try lia. exists lg. split; [lia|reflexivity].
    - constructor.
    - constructor.
  Qed.

  Lemma tick_ok st : forall rest sst it,
    Forall iter_allocs (it :: rest) -> Forall (fun i => exists d, elapsed cfg st (it_clock i) d) (it :: rest) ->
    Exists (fun i => exists d, elapsed cfg st (it_clock i) d /\ dlt d0 d = true) (it :: rest) ->
    exists sst', tick_loop M cfg sst st it rest = Ok (sst', inr tt).
  Proof.
    induction rest as [|it' rest IH]; intros sst it HA HC HE; cbn [tick_loop].
    all: inversion HA as [|? ? HA1 HA2]; subst; inversion HC as [|? ? [d Hd] HC2]; subst.
    all: destruct (perf_scrypt_ok sst it 4 ltac:(lia) HA1) as [c E]; change (2 ^ 4) with 16 in E; rewrite E, bind_Ok; cbn [negb].
    all: unfold elapsed in Hd; rewrite Hd, bind_Ok.
    all: destruct (dlt d0 d) eqn:EL; [eauto|].
    - exfalso. inversion HE as [? ? (d' & E1 & E2)|? ? HE']; subst; [|inversion HE'].
      unfold elapsed in E1. congruence.
    - apply IH; auto. inversion HE as [? ? (d' & E1 & E2)|? ? HE']; subst; auto.
      unfold elapsed in E1. congruence.
  Qed.
  Lemma count_ok st resd : forall rest sst i it,
    Forall iter_allocs (it :: rest) -> Forall (fun i => exists d, elapsed cfg st (it_clock i) d) (it :: rest) ->
    Exists (fun i => exists d, elapsed cfg st (it_clock i) d /\ dlt resd d = true) (it :: rest) ->
    exists sst' o, count_loop M cfg sst st resd i it rest = Ok (sst', inr o).
  Proof.
    induction rest as [|it' rest IH]; intros sst i it HA HC HE; cbn [count_loop].
    all: inversion HA as [|? ? HA1 HA2]; subst; inversion HC as [|? ? [d Hd] HC2]; subst.
    all: destruct (perf_scrypt_ok sst it 7 ltac:(lia) HA1) as [c E]; change (2 ^ 7) with 128 in E; rewrite E, bind_Ok; cbn [negb].
    all: unfold elapsed in Hd; rewrite Hd, bind_Ok.
    all: destruct (dlt resd d) eqn:EL; [eauto|].
    - exfalso. inversion HE as [? ? (d' & E1 & E2)|? ? HE']; subst; [|inversion HE'].
      unfold elapsed in E1. congruence.
    - apply IH; auto. inversion HE as [? ? (d' & E1 & E2)|? ? HE']; subst; auto.
      unfold elapsed in E1. congruence.
  Qed.
End Perf.

(** Working clocks that advance: a resolution is reported, both starting times
    and all readings are available, one of the readings of the first loop is
    later than its start, and one of the second loop by more than the resolution. *)
Record clocks_advance (cfg : clk_cfg) (e : perf_env) : Prop := mk_advance {
  ca_res : exists r, monoclock_getres cfg (pe_res e) = Some r /\
    exists st2, monoclock_get cfg (pe_start2 e) = Some st2 /\
    Forall (fun i => exists d, elapsed cfg st2 (it_clock i) d) (pe_first2 e :: pe_rest2 e) /\
    Exists (fun i => exists d, elapsed cfg st2 (it_clock i) d /\ dlt r d = true) (pe_first2 e :: pe_rest2 e);
  ca_tick : exists st1, monoclock_get cfg (pe_start1 e) = Some st1 /\
    Forall (fun i => exists d, elapsed cfg st1 (it_clock i) d) (pe_first1 e :: pe_rest1 e) /\
    Exists (fun i => exists d, elapsed cfg st1 (it_clock i) d /\ dlt d0 d = true) (pe_first1 e :: pe_rest1 e) }.
Definition perf_allocs (e : perf_env) : Prop :=
  Forall iter_allocs (pe_first1 e :: pe_rest1 e) /\ Forall iter_allocs (pe_first2 e :: pe_rest2 e).

(** C45.  With memory and advancing clocks the estimate is produced, in every
    library state and on every CPU ... *)
Theorem C45_terminates M cfg sst e : size_bits (m_szb M) -> perf_allocs e -> clocks_advance cfg e ->
  exists sst' opps, scryptenc_cpuperf M cfg sst e = Ok (sst', inr opps).
Proof.
  intros Hs (HA1 & HA2) [(r & Er & st2 & E2 & F2 & X2) (st1 & E1 & F1 & X1)].
  unfold scryptenc_cpuperf. rewrite Er, E1.
  destruct (tick_ok M cfg Hs st1 _ sst _ HA1 F1 X1) as [s1 ->]. rewrite bind_Ok, E2.
  destruct (count_ok M cfg Hs st2 r _ s1 0 _ HA2 F2 X2) as (s2 & [i d] & ->). rewrite bind_Ok. eauto.
Qed.
Print Assumptions C45_terminates.
(** ... and whenever an estimate is produced it is positive and finite: 512
    (= 4 * N for N = 128) cores for each of the k+1 iterations, divided by the
    elapsed time d, which exceeds the clock resolution. *)
Theorem C45_estimate M cfg sst e sst' opps :
  scryptenc_cpuperf M cfg sst e = Ok (sst', inr opps) ->
  resolution_positive (pe_res e) -> N.of_nat (length (pe_rest2 e)) < 2 ^ 54 ->
  exists resd st k d,
    monoclock_getres cfg (pe_res e) = Some resd /\ monoclock_get cfg (pe_start2 e) = Some st /\
    elapsed cfg st (it_clock (nth k (pe_first2 e :: pe_rest2 e) (pe_first2 e))) d /\
    (k <= length (pe_rest2 e))%nat /\ is_finite d = true /\ (0 < B2R resd < B2R d)%R /\
    opps = ddiv (of_N (512 * (N.of_nat k + 1))) d /\
    is_finite opps = true /\ (0 < B2R opps)%R.
Proof.
  intros E HR HL. destruct (cpuperf_value M cfg sst e sst' opps E HR HL) as (r & st & k & d & A1 & A2 & A3 & A4 & A5 & A6 & A7 & A8 & A9 & A10).
  exists r, st, k, d. repeat split; auto; try apply A5.
  pose proof (bpow_gt_0 radix2 (-100)). lra.
Qed.
Print Assumptions C45_estimate.

(** A concrete environment: one iteration per loop, a 1 us clock. *)
Definition sec (n : Z) : clock_read := mk_read (CLK_ok n 0) CLK_err None.
Definition ex_iter (n : Z) : perf_iter := mk_iter alloc_good alloc_good alloc_good (sec n).
Definition ex_perf : perf_env :=
  mk_perf_env (mk_read (CLK_ok 0 1000) CLK_err None) (sec 5) (ex_iter 5) [ex_iter 6] (sec 6) (ex_iter 6) [ex_iter 7].
Definition ex_cfg : clk_cfg := mk_clk_cfg true true.
Example C45_hyps : perf_allocs ex_perf /\ clocks_advance ex_cfg ex_perf /\ resolution_positive (pe_res ex_perf) /\
  N.of_nat (length (pe_rest2 ex_perf)) < 2 ^ 54.
Proof.
  repeat split; try (repeat constructor; fail); try (cbn; lia).
  - eexists. split; [reflexivity|]. eexists. split; [reflexivity|]. split.
    + repeat constructor; eexists; reflexivity.
    + apply Exists_cons_tl, Exists_cons_hd. eexists. split; [reflexivity|vm_compute; reflexivity].
  - eexists. split; [reflexivity|]. split.
    + repeat constructor; eexists; reflexivity.
    + apply Exists_cons_tl, Exists_cons_hd. eexists. split; [reflexivity|vm_compute; reflexivity].
Qed.

(** ** Choosing parameters *)
(** The clock assumptions under which the estimate is a sensible number. *)
Definition clock_sane (e : params_env) : Prop :=
  resolution_positive (pe_res (pv_perf e)) /\ N.of_nat (length (pe_rest2 (pv_perf e))) < 2 ^ 54.
(** The memory budget and speed estimate obtained in an environment. *)
Definition budget (M : machine) (e : params_env) (lim : limits) (L : N) : Prop :=
  memtouse (m_szb M) (pv_mem e) (l_maxmem lim) (l_maxmemfrac lim) = Ok (Some L).
Definition speed (M : machine) (cfg : clk_cfg) (sst : smix_state) (e : params_env) (opps : double) : Prop :=
  exists sst', scryptenc_cpuperf M cfg sst (pv_perf e) = Ok (sst', inr opps).

Lemma mul_time_number opps t : is_finite opps = true -> (0 < B2R opps)%R -> is_nan t = false -> is_nan (dmul opps t) = false.
Proof.
  intros Hf Hp Ht.
  destruct (number_cases t Ht) as [Hft|[-> | ->]].
  - pose proof (Bmult_correct 53 1024 _ _ mode_NE opps t) as HM. cbv zeta in HM.
    destruct (Rlt_bool _ _) in HM.
    + destruct HM as (_ & HF & _). rewrite Hf, Hft in HF. apply fin_nan. exact HF.
    + unfold dmul. destruct (Bmult mode_NE opps t); try reflexivity. discriminate HM.
  - destruct opps as [s|s| |s m e b]; try discriminate Hf; [cbn in Hp; lra|reflexivity].
  - destruct opps as [s|s| |s m e b]; try discriminate Hf; [cbn in Hp; lra|reflexivity].
Qed.
Lemma floor_ops_at_most O : is_nan O = false -> at_most 32768 (floor_ops O).
Proof.
  intros HO. unfold floor_ops.
  destruct (of_N_exact 32768 ltac:(lia)) as [Hf Hv].
  destruct (dlt O (of_N 32768)) eqn:E.
  - right. split; [exact Hf|]. rewrite Hv. apply Rle_refl.
  - apply not_lt_at_most in E; auto. rewrite Hv in E. exact E.
Qed.
Lemma floor_ops_fits n O : is_nan O = false -> fits n (floor_ops O) -> fits n (of_N 32768) \/ fits n O.
Proof. unfold floor_ops. destruct (dlt O (of_N 32768)); auto. Qed.

Lemma pickparams_inv M cfg sst e lim verbose sst' msg l r p :
  size_bits (m_szb M) -> is_number (l_maxtime lim) -> clock_sane e ->
  pickparams M cfg sst e lim verbose = Ok (sst', msg, inr (l, r, p)) ->
  exists L opps, budget M e lim L /\ speed M cfg sst e opps /\ 2 ^ 20 <= L <= 2 ^ 64 - 2048 /\
    is_nan (dmul opps (l_maxtime lim)) = false /\
    pick_from_limits L (floor_ops (dmul opps (l_maxtime lim))) = Ok (l, r, p).
Proof.
  intros Hs Ht (HR & HL) E. unfold pickparams in E.
  destruct (memtouse (m_szb M) (pv_mem e) (l_maxmem lim) (l_maxmemfrac lim)) as [[L|]| |] eqn:EM; cbn [bind] in E; try congruence.
  destruct (scryptenc_cpuperf M cfg sst (pv_perf e)) as [[s1 [rc|opps]]| |] eqn:EP; cbn [bind] in E; try congruence.
  destruct (pick_from_limits L (floor_ops (dmul opps (l_maxtime lim)))) as [[[l0 r0] p0]| |] eqn:EK; cbn [bind] in E; try congruence.
  exists L, opps. split; [exact EM|]. split; [exists s1; exact EP|].
  split; [exact (proj1 (memtouse_range _ _ _ _ _ Hs EM))|].
  destruct (cpuperf_value M cfg sst (pv_perf e) s1 opps EP HR HL) as (_ & _ & _ & _ & _ & _ & _ & _ & _ & _ & _ & A9 & A10).
  split; [apply mul_time_number; auto; pose proof (bpow_gt_0 radix2 (-100)); lra|].
  destruct (if verbose then _ else _) in E; cbn [bind] in E; try congruence.
Qed.

(** C13. *)
Theorem C13_chosen_parameters_valid M cfg sst e lim verbose sst' msg l r p :
  size_bits (m_szb M) -> is_number (l_maxtime lim) -> clock_sane e ->
  pickparams M cfg sst e lim verbose = Ok (sst', msg, inr (l, r, p)) ->
  1 <= l <= 63 /\ r = 8 /\ 1 <= p /\ r * p < 2 ^ 30 /\
  (m_szb M = 64 \/ 128 * 8 * p < 2 ^ 32 -> scrypt_valid (m_szb M) (2 ^ l) r p 64).
Proof.
  intros Hs Ht HC E. destruct (pickparams_inv M cfg sst e lim verbose sst' msg l r p Hs Ht HC E) as (L & opps & HB & HS & HLr & HN & EK).
  destruct (pick_from_limits_spec L _ HLr (floor_ops_at_most _ HN)) as (l1 & p1 & E1 & H1 & H2 & H3 & H4 & H5 & H6).
  rewrite E1 in EK. assert (l1 = l /\ 8 = r /\ p1 = p) as (-> & <- & ->) by (injection EK; auto).
  pose proof (memtouse_range _ _ _ _ _ Hs HB) as (_ & HLs). clear - Hs H1 H2 H3 H4 HLs.
  split; [lia|]. split; [reflexivity|]. split; [lia|]. split; [lia|]. intros Hx.
  assert (2 ^ 32 <= 2 ^ m_szb M) by (destruct Hs as [-> | ->]; lia).
  assert (128 * 8 * p < 2 ^ m_szb M) by (destruct Hx as [-> | Hx]; lia).
  constructor; try lia. exists l. split; [lia|reflexivity].
Qed.
Print Assumptions C13_chosen_parameters_valid.

(** C14. *)
Theorem C14_chosen_parameters_respect_limits M cfg sst e lim verbose sst' msg l r p :
  size_bits (m_szb M) -> is_number (l_maxtime lim) -> clock_sane e ->
  pickparams M cfg sst e lim verbose = Ok (sst', msg, inr (l, r, p)) ->
  exists L opps, budget M e lim L /\ speed M cfg sst e opps /\
    128 * 2 ^ l * r <= L /\
    (4 * 2 ^ l * r * p <= 2 ^ 15 \/ fits (4 * 2 ^ l * r * p) (dmul opps (l_maxtime lim))).
Proof.
  intros Hs Ht HC E. destruct (pickparams_inv M cfg sst e lim verbose sst' msg l r p Hs Ht HC E) as (L & opps & HB & HS & HLr & HN & EK).
  destruct (pick_from_limits_spec L _ HLr (floor_ops_at_most _ HN)) as (l1 & p1 & E1 & H1 & H2 & H3 & H4 & H5 & H6).
  rewrite E1 in EK. assert (l1 = l /\ 8 = r /\ p1 = p) as (-> & <- & ->) by (injection EK; auto).
  exists L, opps. repeat split; auto.
  destruct (floor_ops_fits _ _ HN H5) as [H|H]; [left|right; exact H].
  destruct (of_N_exact 32768 ltac:(lia)) as [Hf Hv]. apply fits_fin in H; auto. rewrite Hv in H.
  apply le_IZR in H. lia.
Qed.
Print Assumptions C14_chosen_parameters_respect_limits.

(** C15.  With the CPU limit [ops] = max (2^15, speed * maxtime): either the CPU
    limit excludes even a single lane at twice the N, or twice the N exceeds the
    memory limit and one more lane exceeds the CPU limit or the format's cap. *)
Theorem C15_chosen_parameters_maximal M cfg sst e lim verbose sst' msg l r p :
  size_bits (m_szb M) -> is_number (l_maxtime lim) -> clock_sane e ->
  pickparams M cfg sst e lim verbose = Ok (sst', msg, inr (l, r, p)) ->
  exists L opps, budget M e lim L /\ speed M cfg sst e opps /\
    let too_slow n := 2 ^ 15 < n /\ ~ fits n (dmul opps (l_maxtime lim)) in
    (p = 1 /\ too_slow (4 * (2 * 2 ^ l) * r * p)) \/
    (L < 128 * (2 * 2 ^ l) * r /\ (too_slow (4 * 2 ^ l * r * (p + 1)) \/ 2 ^ 30 <= r * (p + 1))).
Proof.
  intros Hs Ht HC E. destruct (pickparams_inv M cfg sst e lim verbose sst' msg l r p Hs Ht HC E) as (L & opps & HB & HS & HLr & HN & EK).
  destruct (pick_from_limits_spec L _ HLr (floor_ops_at_most _ HN)) as (l1 & p1 & E1 & H1 & H2 & H3 & H4 & H5 & H6).
  rewrite E1 in EK. assert (l1 = l /\ 8 = r /\ p1 = p) as (-> & <- & ->) by (injection EK; auto).
  exists L, opps. split; [exact HB|]. split; [exact HS|]. cbv zeta.
  assert (forall n, ~ fits n (floor_ops (dmul opps (l_maxtime lim))) -> 2 ^ 15 < n /\ ~ fits n (dmul opps (l_maxtime lim))) as HX.
  { intros n Hn. unfold floor_ops in Hn.
    destruct (of_N_exact 32768 ltac:(lia)) as [Hf Hv].
    destruct (dlt (dmul opps (l_maxtime lim)) (of_N 32768)) eqn:EL.
    - assert (2 ^ 15 < n) as Hn15.
      { rewrite fits_fin in Hn by exact Hf. rewrite Hv in Hn. apply Rnot_le_lt in Hn. apply lt_IZR in Hn. lia. }
      split; [exact Hn15|]. intros HF. destruct (dlt_true_fin _ _ Hf EL) as [(Hff & HLt)|HI].
      + apply fits_fin in HF; auto. rewrite Hv in HLt. apply (Rle_lt_trans _ _ _ HF) in HLt. apply lt_IZR in HLt. lia.
      + destruct HF as [HF|[HF _]]; rewrite HI in HF; discriminate.
    - split; [|exact Hn]. apply not_lt_at_most in EL; auto. rewrite Hv in EL.
      destruct (N.lt_ge_cases (2 ^ 15) n) as [|Hle]; [assumption|]. exfalso. apply Hn.
      apply (at_most_le _ 32768); [apply IZR_le; lia|exact EL]. }
  destruct H6 as [[Hp Hn]|[HL [Hn|Hc]]].
  - left. split; [exact Hp|apply HX; exact Hn].
  - right. split; [exact HL|left; apply HX; exact Hn].
  - right. split; [exact HL|right; exact Hc].
Qed.
Print Assumptions C15_chosen_parameters_maximal.

(** The choice itself never runs into undefined behaviour (given a budget and
    a speed estimate, and a time limit that is a number). *)
Theorem C13_total M cfg sst e lim L opps :
  size_bits (m_szb M) -> is_number (l_maxtime lim) -> clock_sane e ->
  budget M e lim L -> speed M cfg sst e opps ->
  exists sst' l r p, pickparams M cfg sst e lim false = Ok (sst', None, inr (l, r, p)).
Proof.
  intros Hs Ht (HR & HL) HB (s1 & HS). unfold pickparams. rewrite HB, bind_Ok, HS, bind_Ok.
  destruct (cpuperf_value M cfg sst (pv_perf e) s1 opps HS HR HL) as (_ & _ & _ & _ & _ & _ & _ & _ & _ & _ & _ & A9 & A10).
  assert (is_nan (dmul opps (l_maxtime lim)) = false) as HN
    by (apply mul_time_number; auto; pose proof (bpow_gt_0 radix2 (-100)); lra).
  destruct (pick_from_limits_spec L _ (proj1 (memtouse_range _ _ _ _ _ Hs HB)) (floor_ops_at_most _ HN)) as (l1 & p1 & E1 & _).
  rewrite E1, !bind_Ok. eauto.
Qed.
Print Assumptions C13_total.

(** A concrete environment: 64-bit, 8 GiB of RAM, the clock above. *)
Definition ex_machine : machine := mk_machine 64 HW_SOFTWARE AES_SOFTWARE [] (fun _ => 0) true true.
Definition ex_mem : mem_env :=
  mk_mem_env None None (Some (Some (2 ^ 33, 1))) (Some RL_infinity) (Some RL_infinity) (Some RL_infinity)
    (Some (mk_sysconf 4096 2097152 true)).
Definition ex_env : params_env := mk_params_env ex_mem ex_perf true true.
Definition ex_lim (t : double) : limits := mk_limits 0 d0_125 t.
Example ex_budget t : budget ex_machine ex_env (ex_lim t) (2 ^ 30).
Proof. unfold budget. cbn [l_maxmem l_maxmemfrac ex_lim]. vm_compute. reflexivity. Qed.
Example ex_speed sst : exists opps, speed ex_machine ex_cfg sst ex_env opps.
Proof.
  destruct C45_hyps as (H1 & H2 & _).
  destruct (C45_terminates ex_machine ex_cfg sst ex_perf (or_intror eq_refl) H1 H2) as (s & o & E).
  exists o, s. exact E.
Qed.
Example C13_hyps sst t : is_number t -> clock_sane ex_env /\
  exists sst' l r p, pickparams ex_machine ex_cfg sst ex_env (ex_lim t) false = Ok (sst', None, inr (l, r, p)).
Proof.
  intros Ht. destruct C45_hyps as (_ & _ & H3 & H4). split; [split; assumption|].
  destruct (ex_speed sst) as [opps HS].
  exact (C13_total ex_machine ex_cfg sst ex_env (ex_lim t) (2 ^ 30) opps (or_intror eq_refl) Ht (conj H3 H4) (ex_budget t) HS).
Qed.
(** A time limit that is not a number makes the conversion of the lane count
    undefined (scryptenc.c:165).  Any environment. *)
Theorem C13_nan_refuted M cfg sst e lim L opps verbose :
  budget M e lim L -> speed M cfg sst e opps -> l_maxtime lim = dnan ->
  pickparams M cfg sst e lim verbose = UB.
Proof.
  intros HB (s1 & HS) Ht. unfold pickparams. rewrite HB, bind_Ok, HS, bind_Ok, Ht.
  assert (dmul opps dnan = dnan) as -> by (destruct opps; reflexivity).
  assert (floor_ops dnan = dnan) as -> by reflexivity.
  assert (pick_from_limits L dnan = UB) as ->; [|reflexivity].
  unfold pick_from_limits. assert (forall x, dlt dnan x = false) as H1 by (intros []; reflexivity).
  assert (forall x, ddiv dnan x = dnan) as H2 by (intros []; reflexivity).
  assert (forall x, dlt x dnan = false) as H3 by (intros []; reflexivity).
  rewrite H1, !H2, H3. reflexivity.
Qed.
Print Assumptions C13_nan_refuted.

(** ** Checking parameters *)
(** C16.  Valid parameters, checks enabled: the result is determined by two
    verdicts.  [big]: exactly when 128*N*r (no wrap-around) exceeds the budget.
    [slow]: never if 4*N*r*p is at most speed*maxtime, and always if it exceeds
    it by more than a factor 1 + 2^-51 (three double divisions). *)
Definition verdict (big slow : bool) : rcode :=
  match big, slow with
  | true, true => SCRYPT_EBIGSLOW | true, false => SCRYPT_ETOOBIG
  | false, true => SCRYPT_ETOOSLOW | false, false => SCRYPT_OK
  end.
Theorem C16_limit_checks M cfg sst e lim l r p verbose sst' msg rc L opps :
  1 <= l <= 63 -> 0 < r -> 0 < p -> r * p < 2 ^ 30 ->
  budget M e lim L -> speed M cfg sst e opps ->
  checkparams M cfg sst e lim (Z.of_N l) r p verbose false = Ok (sst', msg, rc) ->
  exists big slow, rc = verdict big slow /\
    (big = true <-> L < 128 * 2 ^ l * r) /\
    (fits (4 * 2 ^ l * r * p) (dmul opps (l_maxtime lim)) -> slow = false) /\
    (is_nan (dmul opps (l_maxtime lim)) = false -> slow = false ->
     at_most (IZR (Z.of_N (4 * 2 ^ l * r * p)) / (1 + bpow radix2 (-51))) (dmul opps (l_maxtime lim))).
Proof.
  intros Hl Hr Hp Hrp HB (s1 & HS) E. unfold checkparams in E.
  destruct (Z.ltb_spec (Z.of_N l) 1) as [|_]; [lia|]. destruct (Z.ltb_spec 63 (Z.of_N l)) as [|_]; [lia|]. cbn [orb] in E.
  assert (w64 (r * p) = r * p) as Hw by (apply w64_small; lia). rewrite Hw in E.
  destruct (N.leb_spec 0x40000000 (r * p)) as [|_]; [lia|].
  destruct (N.eqb_spec r 0) as [|_]; [lia|]. destruct (N.eqb_spec p 0) as [|_]; [lia|]. cbn [orb] in E.
  rewrite HB, bind_Ok, HS, bind_Ok in E. rewrite N2Z.id in E.
  destruct (if verbose then _ else _) as [m| |] in E; cbn [bind] in E; try congruence.
  assert (rc = check_limits L (dmul opps (l_maxtime lim)) l r p) as -> by congruence. clear E.
  unfold check_limits. rewrite shiftl_pow2 by lia.
  set (big := L / 2 ^ l / r <? 128). pose proof (toobig_spec L l r ltac:(lia) Hr) as HB'. fold big in HB'.
  set (O := dmul opps (l_maxtime lim)).
  exists big, (cpu_too_slow O l r p). split; [|split; [exact HB'|split]].
  - unfold cpu_too_slow, verdict. destruct big, (dlt _ _); reflexivity.
  - apply fits_not_slow; auto; lia.
  - intros HN Hsl. apply not_slow_fits; auto; lia.
Qed.
Print Assumptions C16_limit_checks.
Lemma checkparams_total M cfg sst e lim l r p L opps :
  1 <= l <= 63 -> 0 < r -> 0 < p -> r * p < 2 ^ 30 ->
  budget M e lim L -> speed M cfg sst e opps ->
  exists sst' rc, checkparams M cfg sst e lim (Z.of_N l) r p false false = Ok (sst', None, rc).
Proof.
  intros Hl Hr Hp Hrp HB (s1 & HS). unfold checkparams.
  destruct (Z.ltb_spec (Z.of_N l) 1) as [|_]; [lia|]. destruct (Z.ltb_spec 63 (Z.of_N l)) as [|_]; [lia|]. cbn [orb].
  assert (w64 (r * p) = r * p) as Hw by (apply w64_small; lia). rewrite Hw.
  destruct (N.leb_spec 0x40000000 (r * p)) as [|_]; [lia|].
  destruct (N.eqb_spec r 0) as [|_]; [lia|]. destruct (N.eqb_spec p 0) as [|_]; [lia|]. cbn [orb].
  rewrite HB, bind_Ok, HS, !bind_Ok. eauto.
Qed.
Example C16_hyps sst t : exists opps sst' rc, speed ex_machine ex_cfg sst ex_env opps /\
  checkparams ex_machine ex_cfg sst ex_env (ex_lim t) (Z.of_N 14) 8 1 false false = Ok (sst', None, rc).
Proof.
  destruct (ex_speed sst) as [opps HS]. exists opps.
  destruct (checkparams_total ex_machine ex_cfg sst ex_env (ex_lim t) 14 8 1 (2 ^ 30) opps
    ltac:(lia) ltac:(lia) ltac:(lia) ltac:(lia) (ex_budget t) HS) as (s & rc & E). eauto.
Qed.
(** Parameters outside the format's range are rejected, whatever the flags and
    the environment; and nothing else gives that code. *)
Theorem C16_invalid M cfg sst e lim logN r p verbose force :
  r < 2 ^ 32 -> p < 2 ^ 32 ->
  (~ (1 <= logN <= 63)%Z \/ r = 0 \/ p = 0 \/ 2 ^ 30 <= r * p ->
   checkparams M cfg sst e lim logN r p verbose force = Ok (sst, None, SCRYPT_EINVAL)).
Proof.
  intros Hr Hp H. unfold checkparams.
  destruct (Z.ltb_spec logN 1) as [|H1]; [reflexivity|]. destruct (Z.ltb_spec 63 logN) as [|H2]; [reflexivity|]. cbn [orb].
  assert (r * p < 2 ^ 64) as Hrp by (change (2 ^ 64) with (2 ^ 32 * 2 ^ 32); apply N.mul_lt_mono; assumption).
  assert (w64 (r * p) = r * p) as Hw by (apply w64_small; exact Hrp). rewrite Hw.
  destruct (N.leb_spec 0x40000000 (r * p)) as [|H3]; [reflexivity|].
  destruct (N.eqb_spec r 0) as [|]; [reflexivity|]. destruct (N.eqb_spec p 0) as [|]; [reflexivity|]. lia.
Qed.
Print Assumptions C16_invalid.
(** With force nothing is measured and valid parameters are accepted. *)
Theorem C16_force M cfg sst e lim l r p :
  1 <= l <= 63 -> 0 < r -> 0 < p -> r * p < 2 ^ 30 ->
  checkparams M cfg sst e lim (Z.of_N l) r p false true = Ok (sst, None, SCRYPT_OK).
Proof.
  intros Hl Hr Hp Hrp. unfold checkparams.
  destruct (Z.ltb_spec (Z.of_N l) 1) as [|_]; [lia|]. destruct (Z.ltb_spec 63 (Z.of_N l)) as [|_]; [lia|]. cbn [orb].
  assert (w64 (r * p) = r * p) as Hw by (apply w64_small; lia). rewrite Hw.
  destruct (N.leb_spec 0x40000000 (r * p)) as [|_]; [lia|].
  destruct (N.eqb_spec r 0) as [|_]; [lia|]. destruct (N.eqb_spec p 0) as [|_]; [lia|]. reflexivity.
Qed.
(** A time limit that is not a number switches the time check off: parameters
    are never reported too slow. *)
Theorem C16_nan_refuted M cfg sst e lim l r p sst' msg rc verbose L opps :
  1 <= l <= 63 -> 0 < r -> 0 < p -> r * p < 2 ^ 30 -> l_maxtime lim = dnan ->
  budget M e lim L -> speed M cfg sst e opps ->
  checkparams M cfg sst e lim (Z.of_N l) r p verbose false = Ok (sst', msg, rc) ->
  rc = SCRYPT_OK \/ rc = SCRYPT_ETOOBIG.
Proof.
  intros Hl Hr Hp Hrp Ht HB (s1 & HS) E. unfold checkparams in E.
  destruct (Z.ltb_spec (Z.of_N l) 1) as [|_]; [lia|]. destruct (Z.ltb_spec 63 (Z.of_N l)) as [|_]; [lia|]. cbn [orb] in E.
  assert (w64 (r * p) = r * p) as Hw by (apply w64_small; lia). rewrite Hw in E.
  destruct (N.leb_spec 0x40000000 (r * p)) as [|_]; [lia|].
  destruct (N.eqb_spec r 0) as [|_]; [lia|]. destruct (N.eqb_spec p 0) as [|_]; [lia|]. cbn [orb] in E.
  rewrite HB, bind_Ok, HS, bind_Ok in E. rewrite N2Z.id in E.
  destruct (if verbose then _ else _) as [m| |] in E; cbn [bind] in E; try congruence.
  assert (rc = check_limits L (dmul opps (l_maxtime lim)) l r p) as -> by congruence. clear E.
  rewrite Ht. assert (dmul opps dnan = dnan) as -> by (destruct opps; reflexivity).
  unfold check_limits. assert (forall x, dlt dnan x = false) as H1 by (intros []; reflexivity).
  assert (forall x, ddiv dnan x = dnan) as H2 by (intros []; reflexivity).
  rewrite !H2, H1, andb_false_r. destruct (_ <? 128); auto.
Qed.
Print Assumptions C16_nan_refuted.

(** C17.  What encryption chose under some limits passes the check under limits
    that are at least as generous, provided speed*maxtime reaches the 2^15 floor. *)
Theorem C17_decryptable M cfg sst e lim verbose sst' msg l r p cfg' s2 e' lim' L' opps' verbose' s3 msg' rc :
  size_bits (m_szb M) -> is_number (l_maxtime lim) -> clock_sane e ->
  pickparams M cfg sst e lim verbose = Ok (sst', msg, inr (l, r, p)) ->
  budget M e' lim' L' -> speed M cfg' s2 e' opps' ->
  checkparams M cfg' s2 e' lim' (Z.of_N l) r p verbose' false = Ok (s3, msg', rc) ->
  (forall L, budget M e lim L -> L <= L') ->
  (forall opps n, speed M cfg sst e opps -> fits n (dmul opps (l_maxtime lim)) -> fits n (dmul opps' (l_maxtime lim'))) ->
  fits (2 ^ 15) (dmul opps' (l_maxtime lim')) ->
  rc = SCRYPT_OK.
Proof.
  intros Hs Ht HC EP HB HS EC HL HO Hfl.
  destruct (C13_chosen_parameters_valid _ _ _ _ _ _ _ _ _ _ _ Hs Ht HC EP) as (A1 & A2 & A3 & A4 & _).
  destruct (C14_chosen_parameters_respect_limits _ _ _ _ _ _ _ _ _ _ _ Hs Ht HC EP) as (L & opps & B1 & B2 & B3 & B4).
  assert (0 < r) as Hr0 by (clear - A2; lia). assert (0 < p) as Hp0 by (clear - A3; lia).
  destruct (C16_limit_checks _ _ _ _ _ _ _ _ _ _ _ _ _ _ A1 Hr0 Hp0 A4 HB HS EC) as (big & slow & -> & D1 & D2 & _).
  assert (slow = false) as ->.
  { apply D2. destruct B4 as [B4|B4].
    - apply (at_most_le _ (IZR (Z.of_N (2 ^ 15)))); [apply IZR_le; lia|exact Hfl].
    - exact (HO _ _ B2 B4). }
  assert (big = false) as ->; [|reflexivity].
  destruct big; [|reflexivity]. exfalso. specialize (HL L B1). pose proof (proj1 D1 eq_refl). lia.
Qed.
Print Assumptions C17_decryptable.
(** In the same environment with the same limits: *)
Theorem C17_same_environment M cfg sst e lim verbose sst' msg l r p opps verbose' s3 msg' rc :
  size_bits (m_szb M) -> is_number (l_maxtime lim) -> clock_sane e ->
  pickparams M cfg sst e lim verbose = Ok (sst', msg, inr (l, r, p)) ->
  speed M cfg sst e opps -> fits (2 ^ 15) (dmul opps (l_maxtime lim)) ->
  checkparams M cfg sst e lim (Z.of_N l) r p verbose' false = Ok (s3, msg', rc) ->
  rc = SCRYPT_OK.
Proof.
  intros Hs Ht HC EP HS Hf EC.
  destruct (pickparams_inv _ _ _ _ _ _ _ _ _ _ _ Hs Ht HC EP) as (L & opps0 & B1 & B2 & _).
  assert (forall L', budget M e lim L' -> L' <= L) as HL by (unfold budget in *; intros L' HB'; assert (L' = L) by congruence; lia).
  apply (C17_decryptable M cfg sst e lim verbose sst' msg l r p cfg sst e lim L opps verbose' s3 msg' rc); auto.
  intros o n (x & Hx) HF. destruct HS as (y & Hy). assert (o = opps) as <- by congruence. exact HF.
Qed.
Print Assumptions C17_same_environment.
(** Below the floor the property fails, in every environment: encryption
    chooses parameters and the check then always reports them too slow. *)
Theorem C17_below_floor_refuted M cfg sst e lim opps verbose sst' msg l r p verbose' s3 msg' rc :
  size_bits (m_szb M) -> is_number (l_maxtime lim) -> clock_sane e ->
  speed M cfg sst e opps ->
  ~ at_most (32768 / (1 + bpow radix2 (-51))) (dmul opps (l_maxtime lim)) ->
  pickparams M cfg sst e lim verbose = Ok (sst', msg, inr (l, r, p)) ->
  checkparams M cfg sst e lim (Z.of_N l) r p verbose' false = Ok (s3, msg', rc) ->
  rc = SCRYPT_ETOOSLOW.
Proof.
  intros Hs Ht HC HS HX EP EC.
  destruct (pickparams_inv _ _ _ _ _ _ _ _ _ _ _ Hs Ht HC EP) as (L & opps0 & B1 & B2 & B3 & B4 & B5).
  assert (opps0 = opps) as -> by (destruct HS as (? & HS), B2 as (? & B2); congruence).
  destruct (pick_from_limits_spec L _ B3 (floor_ops_at_most _ B4)) as (l1 & p1 & E1 & H1 & H2 & H3 & H4 & H5 & H6).
  rewrite E1 in B5. assert (l1 = l /\ 8 = r /\ p1 = p) as (-> & <- & ->) by (injection B5; auto). clear H6.
  destruct (C16_limit_checks M cfg sst e lim l 8 p verbose' s3 msg' rc L opps ltac:(clear - H1; lia) eq_refl ltac:(clear - H2; lia)
    ltac:(clear - H3; lia) B1 HS EC) as (big & slow & -> & D1 & D2 & D3).
  destruct big. { pose proof (proj1 D1 eq_refl) as HH. clear - HH H4. lia. }
  destruct slow; [reflexivity|]. exfalso. apply HX.
  eapply at_most_le; [|apply D3; [exact B4|reflexivity]].
  apply Rmult_le_compat_r.
  - apply Rlt_le, Rinv_0_lt_compat. pose proof (bpow_gt_0 radix2 (-51)). lra.
  - assert (2 ^ 10 <= 2 ^ l) by (apply N.pow_le_mono_r; clear - H1; lia).
    assert (2 ^ 10 * 1 <= 2 ^ l * p) by (apply N.mul_le_mono; [exact H|exact H2]).
    apply IZR_le. clear - H0. lia.
Qed.
Print Assumptions C17_below_floor_refuted.
Example C17_hyps sst : exists opps, speed ex_machine ex_cfg sst ex_env opps /\ fits (2 ^ 15) (dmul opps (l_maxtime (ex_lim dinf))) /\
  is_number dinf.
Proof.
  destruct (ex_speed sst) as [opps (s & HS)]. exists opps. split; [exists s; exact HS|]. split; [|reflexivity].
  destruct C45_hyps as (_ & _ & H3 & H4).
  destruct (C45_estimate _ _ _ _ _ _ HS H3 H4) as (_ & _ & _ & _ & _ & _ & _ & _ & _ & _ & _ & F & P).
  left. cbn [l_maxtime ex_lim]. destruct opps as [x|x| |x m e b]; try discriminate F; [cbn in P; lra|].
  destruct x; [|reflexivity]. exfalso. revert P. unfold B2R. change (cond_Zopp true (Z.pos m)) with (Z.neg m).
  intros P. assert (F2R (Float radix2 (Z.neg m) e) <= 0)%R by (apply F2R_le_0; cbn; lia). lra.
Qed.
(** Below the floor: a time limit of 0 seconds. *)
Example C17_below_floor_hyps sst : exists opps sst' l r p, speed ex_machine ex_cfg sst ex_env opps /\
  ~ at_most (32768 / (1 + bpow radix2 (-51))) (dmul opps (l_maxtime (ex_lim d0))) /\ is_number d0 /\
  pickparams ex_machine ex_cfg sst ex_env (ex_lim d0) false = Ok (sst', None, inr (l, r, p)).
Proof.
  destruct (ex_speed sst) as [opps HS]. destruct (C13_hyps sst d0 eq_refl) as (HC & s' & l & r & p & E).
  exists opps, s', l, r, p. split; [exact HS|]. split; [|split; [reflexivity|exact E]].
  destruct HS as (s & HS). destruct HC as (H3 & H4).
  destruct (C45_estimate _ _ _ _ _ _ HS H3 H4) as (_ & _ & _ & _ & _ & _ & _ & _ & _ & _ & _ & F & P).
  cbn [l_maxtime ex_lim]. assert (is_finite (dmul opps d0) = true /\ B2R (dmul opps d0) = 0%R) as (A & B).
  { destruct opps as [x|x| |x m e b]; try discriminate F; split; reflexivity. }
  intros [H|[_ H]]; [rewrite H in A; discriminate|]. rewrite B in H.
  assert (0 < 32768 / (1 + bpow radix2 (-51)))%R; [|lra].
  apply Rdiv_lt_0_compat; [lra|]. pose proof (bpow_gt_0 radix2 (-51)). lra.
Qed.

(** ** C18: the memory budget *)
(** A limit the system reports. *)
Inductive reported (e : mem_env) : N -> Prop :=
| rep_memsize buf : me_memsize e = Some (Some buf) -> length buf = 8%nat -> reported e (le_val buf)
| rep_sysinfo t u : me_sysinfo e = Some (Some (t, u)) -> reported e (t * u)
| rep_as v : me_as e = Some (RL_value v) -> reported e v
| rep_data v : me_data e = Some (RL_value v) -> reported e v
| rep_rss v : me_rss e = Some (RL_value v) -> reported e v
| rep_sysconf s : me_sysconf e = Some s -> sc_pagesize s <> (-1)%Z -> sc_physpages s <> (-1)%Z ->
    reported e (Z.to_N (sc_pagesize s * sc_physpages s)).
(** hw.usermem is only a limit as long as it is not below half the physical memory. *)
Inductive soft_limit (e : mem_env) : N -> Prop :=
| soft_usermem buf : me_usermem e = Some (Some buf) -> length buf = 8%nat -> soft_limit e (le_val buf)
| soft_half s : me_sysconf e = Some s -> soft_limit e (Z.to_N (sc_pagesize s * sc_physpages s) / 2).
(** What the kernel reports are 64-bit quantities. *)
Definition rl_sane (r : option rlimit_result) : Prop := match r with Some (RL_value v) => v < 2 ^ 64 | _ => True end.
Definition sc_sane (r : option sysconf_result) : Prop :=
  match r with
  | Some s => (sc_pagesize s = -1 \/ sc_physpages s = -1 \/
      0 <= sc_pagesize s < 2 ^ 63 /\ 0 <= sc_physpages s < 2 ^ 63 /\ sc_pagesize s * sc_physpages s < 2 ^ 64)%Z
  | None => True
  end.
Definition si_sane (r : option (option (N * N))) : Prop :=
  match r with Some (Some (t, u)) => t < 2 ^ 64 /\ t * u < 2 ^ 64 | _ => True end.
Definition mem_sane (e : mem_env) : Prop :=
  rl_sane (me_as e) /\ rl_sane (me_data e) /\ rl_sane (me_rss e) /\ sc_sane (me_sysconf e) /\ si_sane (me_sysinfo e) /\
  (forall buf, me_memsize e = Some (Some buf) -> bytes_ok buf) /\ (forall buf, me_usermem e = Some (Some buf) -> bytes_ok buf).

Lemma clamp_min szb v : clamp szb v = N.min v (SIZE_MAX szb).
Proof. unfold clamp. destruct (N.ltb_spec (SIZE_MAX szb) v); lia. Qed.

Lemma sysctl_inv szb o v : (forall buf, o = Some (Some buf) -> bytes_ok buf) ->
  limit_or_max szb (memlimit_sysctl_hw szb) o = Some v ->
  (forall buf, o = Some (Some buf) -> length buf = 8%nat -> v = N.min (le_val buf) (SIZE_MAX szb)) /\
  (v = SIZE_MAX szb \/ exists buf, o = Some (Some buf) /\ length buf = 8%nat /\ v = N.min (le_val buf) (SIZE_MAX szb)).
Proof.
  intros HB H. destruct o as [[buf|]|]; cbn [limit_or_max memlimit_sysctl_hw] in H.
  - destruct (Nat.eqb_spec (length buf) 8) as [E|E].
    + assert (v = N.min (le_val buf) (SIZE_MAX szb)) by (rewrite clamp_min in H; congruence). subst v. split.
      * intros b Hb _. assert (b = buf) by congruence. subst. reflexivity.
      * right. eauto.
    + destruct (Nat.eqb (length buf) 4); [|discriminate]. rewrite clamp_min in H. split.
      * intros b Hb Hl. assert (b = buf) by congruence. subst. contradiction.
      * left. assert (v = N.min (SIZE_MAX szb) (SIZE_MAX szb)) by congruence. lia.
  - discriminate.
  - split; [congruence|left; congruence].
Qed.
Lemma sysinfo_inv szb o v : si_sane o -> limit_or_max szb (memlimit_sysinfo szb) o = Some v ->
  (forall t u, o = Some (Some (t, u)) -> v = N.min (t * u) (SIZE_MAX szb)) /\
  (v = SIZE_MAX szb \/ exists t u, o = Some (Some (t, u)) /\ v = N.min (t * u) (SIZE_MAX szb)).
Proof.
  intros HS H. destruct o as [[[t u]|]|]; cbn [limit_or_max memlimit_sysinfo] in H.
  - destruct HS as [H1 H2]. rewrite (w64_small t), (w64_small (t * u)), clamp_min in H by assumption.
    assert (v = N.min (t * u) (SIZE_MAX szb)) by congruence. subst v. split.
    + intros t' u' E. assert (t' = t /\ u' = u) as [-> ->] by (split; congruence). reflexivity.
    + right. eauto.
  - discriminate.
  - split; [congruence|left; congruence].
Qed.
Lemma sysconf_inv szb o v : sc_sane o -> limit_or_max szb (memlimit_sysconf szb) o = Some v -> SIZE_MAX szb < 2 ^ 64 ->
  (forall s, o = Some s -> sc_pagesize s <> (-1)%Z -> sc_physpages s <> (-1)%Z ->
     v = N.min (Z.to_N (sc_pagesize s * sc_physpages s)) (SIZE_MAX szb)) /\
  (v = SIZE_MAX szb \/ exists s, o = Some s /\ sc_pagesize s <> (-1)%Z /\ sc_physpages s <> (-1)%Z /\
     v = N.min (Z.to_N (sc_pagesize s * sc_physpages s)) (SIZE_MAX szb)).
Proof.
  intros HS H HM. destruct o as [s|]; cbn [limit_or_max] in H.
  2: split; [congruence|left; congruence].
  unfold memlimit_sysconf in H. unfold sc_sane in HS.
  destruct (Z.eqb_spec (sc_pagesize s) (-1)) as [E1|E1]; cbn [orb] in H.
  { split; [intros s' Hs'; assert (s' = s) by congruence; subst; contradiction|].
    left. destruct (sc_errno_benign s); [|discriminate]. rewrite clamp_min in H.
    assert (v = N.min 0xffffffffffffffff (SIZE_MAX szb)) by congruence. lia. }
  destruct (Z.eqb_spec (sc_physpages s) (-1)) as [E2|E2]; cbn [orb] in H.
  { split; [intros s' Hs'; assert (s' = s) by congruence; subst; contradiction|].
    left. destruct (sc_errno_benign s); [|discriminate]. rewrite clamp_min in H.
    assert (v = N.min 0xffffffffffffffff (SIZE_MAX szb)) by congruence. lia. }
  destruct HS as [HS|[HS|(H1 & H2 & H3)]]; [contradiction|contradiction|].
  assert (u64_of_long (sc_pagesize s) = Z.to_N (sc_pagesize s)) as Q1 by (unfold u64_of_long; rewrite Z.mod_small by lia; reflexivity).
  assert (u64_of_long (sc_physpages s) = Z.to_N (sc_physpages s)) as Q2 by (unfold u64_of_long; rewrite Z.mod_small by lia; reflexivity).
  rewrite Q1, Q2, clamp_min, <- Z2N.inj_mul, w64_small in H by lia.
  assert (v = N.min (Z.to_N (sc_pagesize s * sc_physpages s)) (SIZE_MAX szb)) by congruence. subst v. split.
  - intros s' Hs' _ _. assert (s' = s) by congruence. subst. reflexivity.
  - right. eauto.
Qed.
Lemma rlimit_step_inv m r v : rlimit_step m r = Some v ->
  v <= m /\ (forall x, r = Some (RL_value x) -> v <= x) /\ (v = m \/ exists x, r = Some (RL_value x) /\ v = x).
Proof.
  destruct r as [[| |x]|]; cbn [rlimit_step]; intros H; try discriminate.
  - assert (v = m) by congruence. subst. split; [lia|]. split; [discriminate|auto].
  - destruct (N.ltb_spec x m).
    + assert (v = x) by congruence. subst. split; [lia|]. split; [intros y E; assert (y = x) by congruence; lia|eauto].
    + assert (v = m) by congruence. subst. split; [lia|]. split; [intros y E; assert (y = x) by congruence; lia|eauto].
  - assert (v = m) by congruence. subst. split; [lia|]. split; [discriminate|auto].
Qed.
Lemma rlimit_inv szb e v : memlimit_rlimit szb e = Some v -> SIZE_MAX szb < 2 ^ 64 ->
  (forall x, me_as e = Some (RL_value x) \/ me_data e = Some (RL_value x) \/ me_rss e = Some (RL_value x) -> v <= x) /\
  (v = SIZE_MAX szb \/ exists x, (me_as e = Some (RL_value x) \/ me_data e = Some (RL_value x) \/ me_rss e = Some (RL_value x)) /\ v = x).
Proof.
  unfold memlimit_rlimit. intros H HM.
  destruct (rlimit_step 0xffffffffffffffff (me_as e)) as [m1|] eqn:E1; [|discriminate].
  destruct (rlimit_step m1 (me_data e)) as [m2|] eqn:E2; [|discriminate].
  destruct (rlimit_step m2 (me_rss e)) as [m3|] eqn:E3; [|discriminate].
  apply rlimit_step_inv in E1, E2, E3. rewrite clamp_min in H. assert (v = N.min m3 (SIZE_MAX szb)) by congruence. subst v.
  destruct E1 as (A1 & A2 & A3), E2 as (B1 & B2 & B3), E3 as (C1 & C2 & C3). split.
  - intros x [Hx|[Hx|Hx]]; [specialize (A2 x Hx)|specialize (B2 x Hx)|specialize (C2 x Hx)]; lia.
  - destruct (N.le_gt_cases (SIZE_MAX szb) m3) as [HL|HL]; [left; lia|]. right.
    exists m3. split; [|lia].
    destruct C3 as [C3|(x & X1 & X2)]; [|subst; auto].
    destruct B3 as [B3|(x & X1 & X2)]; [|subst; auto].
    destruct A3 as [A3|(x & X1 & X2)]; [|subst; auto]. lia.
Qed.

(** C18.  [f * v] below is the double product of the fraction and the limit. *)
Theorem C18_memory_budget szb e maxmem f L : size_bits szb -> mem_sane e ->
  memtouse szb e maxmem f = Ok (Some L) ->
  2 ^ 20 <= L /\ (0 < maxmem -> L <= N.max (2 ^ 20) maxmem) /\
  (forall v, reported e v -> L = 2 ^ 20 \/ (IZR (Z.of_N L) <= B2R (dmul f (of_N v)))%R) /\
  (L = 2 ^ 20 \/ L = maxmem \/ exists m, (m = SIZE_MAX szb \/ reported e m \/ soft_limit e m) /\
     (IZR (Z.of_N L) <= B2R (dmul f (of_N m)) < IZR (Z.of_N L) + 1)%R).
Proof.
  intros Hs (S1 & S2 & S3 & S4 & S5 & S6 & S7) H. apply memtouse_inv in H. destruct H as (F & R0 & [H|H]); [discriminate|].
  destruct H as (u & a & b & c & d & avail & Eu & Ea & Eb & Ec & Ed & ET & E). apply Some_inj in E. subst L.
  destruct (size_max_lt szb Hs) as [HM1 HM2].
  assert (SIZE_MAX szb < 2 ^ 64) as HM by lia.
  destruct (smallest_le szb (adjusted szb u d) a b c d) as (G0 & G1 & G2 & G3 & G4 & G5 & G6).
  set (m := smallest szb (adjusted szb u d) a b c d) in *. clearbody m.
  destruct (dmul_frac f m F R0) as (DF & DE & DP); [lia|].
  apply to_uint_inv in ET. destruct ET as (_ & HA & HR). specialize (HR DP).
  apply (sysctl_inv szb _ _ S7) in Eu. apply (sysctl_inv szb _ _ S6) in Ea. apply (sysinfo_inv szb _ _ S5) in Eb.
  apply (fun x => rlimit_inv szb _ _ x HM) in Ec. apply (fun x => sysconf_inv szb _ _ S4 x HM) in Ed.
  assert (N.max 1048576 avail = 2 ^ 20 \/ N.max 1048576 avail = avail) as HMx by lia.
  assert (avail <= final_mem maxmem avail \/ True) as _ by auto.
  assert (final_mem maxmem avail = 2 ^ 20 \/ final_mem maxmem avail <= avail) as HFA.
  { unfold final_mem. destruct ((0 <? maxmem) && (maxmem <? avail)) eqn:EM; [|lia].
    apply andb_prop in EM. destruct EM as [_ EM]. apply N.ltb_lt in EM. lia. }
  split; [unfold final_mem; lia|]. split; [|split].
  - intros Hm. unfold final_mem. destruct (N.ltb_spec 0 maxmem); [|lia]. destruct (N.ltb_spec maxmem avail); cbn [andb]; lia.
  - intros v Hv. destruct HFA as [HFA|HFA]; [left; exact HFA|right].
    assert (m <= v /\ v <= 2 ^ 64) as [HV1 HV2].
    { destruct Hv as [buf Hb Hl|t w Hb|v Hb|v Hb|v Hb|s Hb Hp1 Hp2].
      - rewrite (proj1 Ea buf Hb Hl) in G2. split; [lia|].
        pose proof (P_endian.le_val_bound buf (S6 buf Hb)) as HB. rewrite Hl in HB. exact (N.lt_le_incl _ _ HB).
      - rewrite (proj1 Eb t w Hb) in G3. rewrite Hb in S5. destruct S5. lia.
      - pose proof (proj1 Ec v (or_introl Hb)). rewrite Hb in S1. cbn in S1. lia.
      - pose proof (proj1 Ec v (or_intror (or_introl Hb))). rewrite Hb in S2. cbn in S2. lia.
      - pose proof (proj1 Ec v (or_intror (or_intror Hb))). rewrite Hb in S3. cbn in S3. lia.
      - rewrite (proj1 Ed s Hb Hp1 Hp2) in G5. rewrite Hb in S4. destruct S4 as [S4|[S4|(_ & _ & S4)]]; try contradiction. lia. }
    pose proof (dmul_frac_mono f m v F R0 HV1 HV2) as HMo.
    apply Rle_trans with (IZR (Z.of_N avail)); [apply IZR_le; lia|]. lra.
  - assert (m = SIZE_MAX szb \/ reported e m \/ soft_limit e m) as HM'.
    { assert (u = SIZE_MAX szb \/ reported e u \/ soft_limit e u) as Hu.
      { destruct (proj2 Eu) as [H|(buf & B1 & B2 & B3)]; [auto|]. destruct (N.le_gt_cases (SIZE_MAX szb) (le_val buf)) as [HX|HX]; [left; lia|].
        right; right. rewrite N.min_l in B3 by lia. subst u. econstructor; eauto. }
      assert (d = SIZE_MAX szb \/ reported e d /\ soft_limit e (d / 2)) as Hd.
      { destruct (proj2 Ed) as [H|(s & B1 & B2 & B3 & B4)]; [auto|]. destruct (N.le_gt_cases (SIZE_MAX szb) (Z.to_N (sc_pagesize s * sc_physpages s))) as [HX|HX]; [left; lia|].
        right. rewrite N.min_l in B4 by lia. subst d. split; [apply rep_sysconf; auto|apply soft_half; auto]. }
      destruct G6 as [G6|[G6|[G6|[G6|[G6|G6]]]]].
      - left; exact G6.
      - rewrite G6. unfold adjusted. destruct (N.eqb_spec d (SIZE_MAX szb)); cbn [negb]; [exact Hu|].
        destruct (u <? d / 2); [|exact Hu]. destruct Hd as [Hd|[_ Hd]]; [contradiction|auto].
      - rewrite G6. destruct (proj2 Ea) as [H|(buf & B1 & B2 & B3)]; [auto|]. destruct (N.le_gt_cases (SIZE_MAX szb) (le_val buf)) as [HX|HX]; [left; lia|].
        right; left. rewrite N.min_l in B3 by lia. rewrite B3. apply rep_memsize; auto.
      - rewrite G6. destruct (proj2 Eb) as [H|(t & w & B1 & B3)]; [auto|]. destruct (N.le_gt_cases (SIZE_MAX szb) (t * w)) as [HX|HX]; [left; lia|].
        right; left. rewrite N.min_l in B3 by lia. rewrite B3. apply rep_sysinfo; auto.
      - rewrite G6. destruct (proj2 Ec) as [H|(x & B1 & B3)]; [auto|]. right; left. rewrite B3.
        destruct B1 as [B1|[B1|B1]]; [apply rep_as|apply rep_data|apply rep_rss]; exact B1.
      - rewrite G6. destruct Hd as [Hd|[Hd _]]; auto. }
    unfold final_mem. destruct ((0 <? maxmem) && (maxmem <? avail)) eqn:EM; [lia|].
    destruct (N.max_spec 1048576 avail) as [[_ ->]|[_ ->]]; [right; right; exists m; auto|left; reflexivity].
Qed.
Print Assumptions C18_memory_budget.
Example C18_hyps : mem_sane ex_mem /\ memtouse 64 ex_mem 0 d0_125 = Ok (Some (2 ^ 30)) /\ reported ex_mem (2 ^ 33 * 1) /\
  memtouse 64 ex_mem 5000000 d0_125 = Ok (Some 5000000).
Proof.
  split; [unfold mem_sane; cbn; repeat split; try lia; discriminate|]. split; [vm_compute; reflexivity|].
  split; [apply rep_sysinfo; reflexivity|vm_compute; reflexivity].
Qed.
(** The computation is defined for every fraction below 1 (and for 1 on 32-bit systems), ... *)
Theorem C18_defined szb e maxmem f : size_bits szb -> is_finite f = true -> (0 < B2R f <= 1)%R ->
  szb = 32 \/ (B2R f < 1)%R -> exists r, memtouse szb e maxmem f = Ok r.
Proof. exact (memtouse_defined szb e maxmem f). Qed.
Print Assumptions C18_defined.
(** ... but for the permitted fraction 1 the conversion to size_t is undefined
    when no limit is known (as on a 64-bit system without any of the interfaces). *)
Theorem C18_defined_refuted : exists e, mem_sane e /\ forall maxmem, memtouse 64 e maxmem d1 = UB.
Proof.
  exists (mk_mem_env None None None (Some RL_infinity) None None None). split.
  - unfold mem_sane; cbn; repeat split; discriminate.
  - intros maxmem. unfold memtouse. vm_compute. reflexivity.
Qed.
