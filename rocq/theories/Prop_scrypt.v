(** Properties C19 - C23: the scrypt function. *)
From Verif Require Import Base SpecBytes SpecSHA SpecScrypt SpecScryptAPI M_endian P_endian M_sha256_tr M_simd
  M_sha256_hw M_sha256 P_sha256_tr P_sha256_hw P_sha256 M_smix P_salsa P_smix P_smix2 P_smix_sse2 P_scrypt
  P_scrypt_ref M_scrypt_sel P_scrypt_sel.

(** crypto_scrypt with the two routines the library really contains. *)
Definition the_crypto_scrypt szb hw junk built cpu :=
  crypto_scrypt szb hw junk built cpu crypto_scrypt_smix_sse2 crypto_scrypt_smix.
Definition the_history szb hw junk built cpu :=
  scrypt_history szb hw junk built cpu crypto_scrypt_smix_sse2 crypto_scrypt_smix.

Lemma routine_correct c : smix_correct (smix_of crypto_scrypt_smix_sse2 crypto_scrypt_smix c).
Proof.
  destruct c; intros B r lg V XY; cbn [smix_of].
  - apply crypto_scrypt_smix_sse2_correct.
  - apply crypto_scrypt_smix_correct.
Qed.

(** Any allocator behaviour: a valid call returns normally. *)
Lemma internal_total szb hw junk smix passwd salt N_ r p buf buflen env :
  smix_correct smix -> size_bits szb -> p < 2 ^ 32 -> scrypt_valid szb N_ r p buflen ->
  bytes_ok passwd -> bytes_ok salt -> (N.to_nat buflen <= length buf)%nat ->
  exists rc buf', crypto_scrypt_internal szb hw junk smix env passwd salt N_ r p buf buflen = Ok (rc, buf') /\
    (rc = SC_OK -> all_ok env) /\ (rc <> SC_OK -> rc <> SC_MUNMAP -> buf' = buf).
Proof.
  intros HS Hs Hp Hv HP HSa Hb. destruct env as [b1 b2 b3 b4].
  destruct (b1 && b2 && b3) eqn:EA.
  - destruct b1, b2, b3; try discriminate.
    rewrite crypto_scrypt_internal_exact by auto. destruct b4; eexists _, _; (split; [reflexivity|]);
      split; try discriminate; try reflexivity; intros; exfalso; auto.
  - exists SC_ENOMEM, buf. split; [|split; [discriminate|auto]].
    unfold crypto_scrypt_internal.
    assert (scrypt_checks szb N_ r p buflen = None \/ exists e, scrypt_checks szb N_ r p buflen = Some e) as [->|[e E]]
      by (destruct (scrypt_checks szb N_ r p buflen); eauto).
    + destruct b1, b2, b3; try discriminate; reflexivity.
    + exfalso. pose proof (crypto_scrypt_internal_exact szb hw junk smix passwd salt N_ r p buf buflen true HS Hs Hp Hv HP HSa Hb) as HE.
      unfold crypto_scrypt_internal in HE. rewrite E in HE. injection HE as HE _.
      unfold scrypt_checks in E.
      destruct ((r =? 0) || (p =? 0)); [congruence|].
      destruct ((0xffffffff <? SIZE_MAX szb) && ((2 ^ 32 - 1) * 32 <? buflen)); [congruence|].
      destruct (N.shiftl 1 30 <=? w64 (r * p)); [congruence|].
      destruct (negb (N.land N_ (w64 (2 ^ 64 + N_ - 1)) =? 0) || (N_ <? 2)); [congruence|].
      destruct ((SIZE_MAX szb / 128 / p <? r) || ((SIZE_MAX szb / 256 <=? 0xffffffff) && ((SIZE_MAX szb - 64) / 256 <? r)) || (SIZE_MAX szb / 128 / r <? N_)); congruence.
Qed.
Lemma testsmix_total szb hw junk env f : smix_correct f -> size_bits szb ->
  exists b, testsmix szb hw junk env f = Ok b.
Proof.
  intros Hf Hs. unfold testsmix.
  assert (N.to_nat 64 <= length (scratch_bytes junk 64))%nat as HL by (rewrite scratch_bytes_length; lia).
  destruct (internal_total szb hw junk f test_passwd test_salt 16 8 1 (scratch_bytes junk 64) 64 env
    Hf Hs ltac:(lia) (test_valid szb Hs) (proj1 test_passwd_ok) (proj2 test_passwd_ok) HL) as (rc & b' & -> & _).
  rewrite bind_Ok. destruct rc; eauto.
Qed.
Lemma first_select szb hw junk built cpu k : size_bits szb -> all_ok (k_env2 k) ->
  exists c, selectsmix szb hw junk built cpu crypto_scrypt_smix_sse2 crypto_scrypt_smix (k_env1 k) (k_env2 k) = Ok c.
Proof.
  intros Hs He. apply select_ok; auto.
  - exact (routine_correct CHOICE_GENERIC).
  - intros _. apply testsmix_total; auto. exact (routine_correct CHOICE_SSE2).
Qed.

(** C19.  In every library state (fresh, or either routine already selected),
    on every CPU, whatever memory contains: the result is the RFC 7914 value
    and exactly buflen bytes of the caller's buffer are changed. *)
Theorem C19_crypto_scrypt szb hw junk built cpu st passwd salt N_ r p buf buflen env1 :
  size_bits szb -> scrypt_valid szb N_ r p buflen -> p <= 2 ^ 25 ->
  bytes_ok passwd -> bytes_ok salt -> (N.to_nat buflen <= length buf)%nat ->
  let ok := mk_alloc true true true true in
  exists st', the_crypto_scrypt szb hw junk built cpu st (mk_call env1 ok ok passwd salt N_ r p buf buflen) =
    Ok (SC_OK, scrypt passwd salt N_ r p (N.to_nat buflen) ++ skipn (N.to_nat buflen) buf, st').
Proof.
  intros Hs Hv Hp HP HSa Hb ok. unfold the_crypto_scrypt, crypto_scrypt.
  cbn [k_env k_env1 k_env2 k_passwd k_salt k_N k_r k_p k_buf k_buflen].
  assert (exists c, match st with Some c => Ok c | None =>
      selectsmix szb hw junk built cpu crypto_scrypt_smix_sse2 crypto_scrypt_smix env1 ok end = Ok c) as [c ->].
  { destruct st as [c|]; [eauto|].
    exact (first_select szb hw junk built cpu (mk_call env1 ok ok passwd salt N_ r p buf buflen) Hs eq_refl). }
  rewrite bind_Ok.
  rewrite (crypto_scrypt_internal_spec szb hw junk (smix_of crypto_scrypt_smix_sse2 crypto_scrypt_smix c) passwd salt
    N_ r p buf buflen ok (routine_correct c) Hs eq_refl Hv Hp HP HSa Hb).
  rewrite bind_Ok. eauto.
Qed.
Print Assumptions C19_crypto_scrypt.
Example C19_hyps : scrypt_valid 64 (2 ^ 14) 8 3 64 /\ 3 <= 2 ^ 25 /\ size_bits 64.
Proof.
  split; [constructor; try (vm_compute; congruence); exists 14; split; [lia|reflexivity]|].
  split; [lia|right; reflexivity].
Qed.
(** The specification gives the value the library's self-test expects. *)
Example C19_spec_sanity : scrypt test_passwd test_salt 16 8 1 64 = test_result.
Proof. exact test_vector. Qed.
(** For larger p the result is scrypt_wrapping, in which block j is mixed
    mix_count p j times. *)
Theorem C19_large_p szb hw junk smix passwd salt N_ r p buf buflen :
  smix_correct smix -> size_bits szb -> p < 2 ^ 32 -> scrypt_valid szb N_ r p buflen ->
  bytes_ok passwd -> bytes_ok salt -> (N.to_nat buflen <= length buf)%nat ->
  crypto_scrypt_internal szb hw junk smix (mk_alloc true true true true) passwd salt N_ r p buf buflen =
    Ok (SC_OK, scrypt_wrapping passwd salt N_ r p (N.to_nat buflen) ++ skipn (N.to_nat buflen) buf).
Proof. exact (fun HS Hs Hp Hv HP HSa Hb => crypto_scrypt_internal_exact szb hw junk smix passwd salt N_ r p buf buflen true HS Hs Hp Hv HP HSa Hb). Qed.
Print Assumptions C19_large_p.
(** ... so that RFC 7914 (which mixes every block exactly once) is not
    followed: block 0 is mixed twice or more and block 2^25 not at all. *)
Theorem C19_large_p_not_rfc p : 2 ^ 25 < p -> 2 <= mix_count p 0 /\ forall j, 2 ^ 25 <= j -> mix_count p j = 0.
Proof.
  intros Hp. unfold mix_count. split.
  - change (0 <? 2 ^ 25) with true. cbv iota. apply N.div_le_lower_bound; lia.
  - intros j Hj. destruct (N.ltb_spec j (2 ^ 25)); [lia|reflexivity].
Qed.
Example C19_large_p_hyps : scrypt_valid 64 2 1 (2 ^ 25 + 1) 64 /\ 2 ^ 25 < 2 ^ 25 + 1 /\ 2 ^ 25 + 1 < 2 ^ 32.
Proof.
  split; [constructor; try (vm_compute; congruence); exists 1; split; [lia|reflexivity]|]. lia.
Qed.

(** C20.  Invalid parameters are rejected before anything is allocated
    (whatever the allocator would do), with the buffer untouched. *)
Theorem C20_rejects szb hw junk smix env passwd salt N_ r p buf buflen :
  size_bits szb -> N_ < 2 ^ 64 -> r < 2 ^ 32 -> p < 2 ^ 32 -> buflen < 2 ^ szb ->
  ~ scrypt_valid szb N_ r p buflen ->
  exists e, (e = SC_EINVAL \/ e = SC_EFBIG \/ e = SC_ENOMEM) /\
    crypto_scrypt_internal szb hw junk smix env passwd salt N_ r p buf buflen = Ok (e, buf).
Proof.
  intros Hs HN Hr Hp Hb Hn. unfold crypto_scrypt_internal.
  destruct (scrypt_checks szb N_ r p buflen) as [e|] eqn:E.
  2: { apply scrypt_checks_spec in E; auto. contradiction. }
  exists e. split; [|reflexivity]. unfold scrypt_checks in E.
  destruct ((r =? 0) || (p =? 0)); [injection E as <-; auto|].
  destruct ((0xffffffff <? SIZE_MAX szb) && ((2 ^ 32 - 1) * 32 <? buflen)); [injection E as <-; auto|].
  destruct (N.shiftl 1 30 <=? w64 (r * p)); [injection E as <-; auto|].
  destruct (negb (N.land N_ (w64 (2 ^ 64 + N_ - 1)) =? 0) || (N_ <? 2)); [injection E as <-; auto|].
  destruct ((SIZE_MAX szb / 128 / p <? r) || ((SIZE_MAX szb / 256 <=? 0xffffffff) && ((SIZE_MAX szb - 64) / 256 <? r)) || (SIZE_MAX szb / 128 / r <? N_)); [injection E as <-; auto|discriminate].
Qed.
Print Assumptions C20_rejects.
Example C20_rejects_hyps : ~ scrypt_valid 64 15 8 1 64 /\ ~ scrypt_valid 32 (2 ^ 22) 8 1 64 /\ ~ scrypt_valid 64 16 0 1 64.
Proof.
  repeat split; intros [H1 H2 (lg & Hlg & E) H4 H5 H6 H7 H8].
  - assert (lg <= 3 \/ 4 <= lg) as [H|H] by lia.
    + assert (2 ^ lg <= 2 ^ 3) by (apply N.pow_le_mono_r; lia). lia.
    + assert (2 ^ 4 <= 2 ^ lg) by (apply N.pow_le_mono_r; lia). lia.
  - vm_compute in H8. discriminate.
  - lia.
Qed.
(** Valid parameters are never rejected: the only failures are the
    allocator's, and nothing is read or written out of bounds. *)
Theorem C20_accepts szb hw junk built cpu st passwd salt N_ r p buf buflen env1 env :
  size_bits szb -> p < 2 ^ 32 -> scrypt_valid szb N_ r p buflen ->
  bytes_ok passwd -> bytes_ok salt -> (N.to_nat buflen <= length buf)%nat ->
  exists rc buf' st',
    the_crypto_scrypt szb hw junk built cpu st
      (mk_call env1 (mk_alloc true true true true) env passwd salt N_ r p buf buflen) = Ok (rc, buf', st') /\
    (rc = SC_OK <-> env = mk_alloc true true true true).
Proof.
  intros Hs Hp Hv HP HSa Hb. unfold the_crypto_scrypt, crypto_scrypt.
  cbn [k_env k_env1 k_env2 k_passwd k_salt k_N k_r k_p k_buf k_buflen].
  assert (exists c, match st with Some c => Ok c | None =>
      selectsmix szb hw junk built cpu crypto_scrypt_smix_sse2 crypto_scrypt_smix env1 (mk_alloc true true true true) end = Ok c) as [c ->].
  { destruct st as [c|]; [eauto|].
    exact (first_select szb hw junk built cpu (mk_call env1 (mk_alloc true true true true) env passwd salt N_ r p buf buflen) Hs eq_refl). }
  rewrite bind_Ok.
  destruct (internal_total szb hw junk _ passwd salt N_ r p buf buflen env (routine_correct c) Hs Hp Hv HP HSa Hb)
    as (rc & b' & E & H1 & _).
  rewrite E, bind_Ok. exists rc, b', (Some c). split; [reflexivity|]. split; [exact H1|].
  intros He. rewrite He in E. rewrite crypto_scrypt_internal_exact in E; auto using routine_correct. congruence.
Qed.
Print Assumptions C20_accepts.
(** No size computation wraps, in any build variant: the posix_memalign and
    mmap sizes are exact, the malloc variants' additional 63 bytes still fit,
    and the length handed to PBKDF2 is within its limit. *)
Theorem C20_sizes szb N_ r p buflen : size_bits szb -> scrypt_valid szb N_ r p buflen ->
  size_B szb r p = 128 * r * p /\ size_XY szb r = 256 * r + 64 /\ size_V szb r N_ = 128 * r * N_ /\
  wsz szb (wsz szb (p * 128) * r) = p * 128 * r /\
  128 * r * p + 63 < 2 ^ szb /\ 256 * r + 64 + 63 < 2 ^ szb /\ 128 * r * N_ + 63 < 2 ^ szb /\
  p * 128 * r <= 32 * (2 ^ 32 - 1).
Proof. exact (scrypt_sizes szb N_ r p buflen). Qed.
Print Assumptions C20_sizes.
Example C20_hyps : scrypt_valid 32 (2 ^ 20) 8 1 64 /\ scrypt_valid 64 (2 ^ 20) (2 ^ 29) 1 (2 ^ 30).
Proof.
  split; (constructor; try (vm_compute; congruence); exists 20; split; [lia|reflexivity]).
Qed.

(** C21. *)
Theorem C21_sse2_equals_generic B r lg V XY :
  (0 < r)%nat -> 1 <= lg < 64 -> length B = (128 * r)%nat -> bytes_ok B ->
  length V = (N.to_nat (2 ^ lg) * (32 * r))%nat -> length XY = (64 * r + 16)%nat ->
  exists B' V1 XY1 V2 XY2,
    crypto_scrypt_smix B r (2 ^ lg) V XY = Ok (B', V1, XY1) /\
    crypto_scrypt_smix_sse2 B r (2 ^ lg) V XY = Ok (B', V2, XY2) /\
    B' = scryptROMix (2 ^ lg) B.
Proof.
  intros Hr Hlg HB HO HV HXY.
  destruct (crypto_scrypt_smix_correct B r lg V XY Hr Hlg HB HO HV HXY) as (V1 & XY1 & E1 & _).
  destruct (crypto_scrypt_smix_sse2_correct B r lg V XY Hr Hlg HB HO HV HXY) as (V2 & XY2 & E2 & _).
  exists (scryptROMix (2 ^ lg) B), V1, XY1, V2, XY2. auto.
Qed.
Print Assumptions C21_sse2_equals_generic.
Example C21_hyps : exists B V XY : list N, length B = (128 * 1)%nat /\ bytes_ok B /\
  length V = (N.to_nat (2 ^ 2) * (32 * 1))%nat /\ length XY = (64 * 1 + 16)%nat.
Proof.
  exists (map N.of_nat (seq 0 128)), (repeat 7 128), (repeat 9 80).
  repeat split; try reflexivity. repeat constructor.
Qed.

(** C22. *)
Theorem C22_reference_agrees szb hw junk smix passwd salt N_ r p buf buflen :
  smix_correct smix -> size_bits szb -> p < 2 ^ 32 -> scrypt_valid szb N_ r p buflen ->
  bytes_ok passwd -> bytes_ok salt -> (N.to_nat buflen <= length buf)%nat ->
  let ok := mk_alloc true true true true in
  crypto_scrypt_ref szb hw junk ok passwd salt N_ r p buf buflen =
  crypto_scrypt_internal szb hw junk smix ok passwd salt N_ r p buf buflen.
Proof.
  intros HS Hs Hp Hv HP HSa Hb ok. unfold ok.
  rewrite crypto_scrypt_internal_exact by auto. apply crypto_scrypt_ref_exact; auto.
  destruct Hv as [H1 H2 (lg & Hlg & E) H4 H5 H6 H7 H8].
  constructor; auto; try lia. exists lg. split; [lia|exact E].
Qed.
Print Assumptions C22_reference_agrees.
(** The reference additionally accepts N = 1 ... *)
Theorem C22_reference_N1 szb hw junk passwd salt r p buf buflen :
  size_bits szb -> 0 < r -> 0 < p -> r * p < 2 ^ 30 -> buflen <= (2 ^ 32 - 1) * 32 ->
  128 * r * p < 2 ^ szb -> 256 * r < 2 ^ szb -> p <= 2 ^ 25 ->
  bytes_ok passwd -> bytes_ok salt -> (N.to_nat buflen <= length buf)%nat ->
  crypto_scrypt_ref szb hw junk (mk_alloc true true true true) passwd salt 1 r p buf buflen =
    Ok (SC_OK, scrypt passwd salt 1 r p (N.to_nat buflen) ++ skipn (N.to_nat buflen) buf).
Proof.
  intros Hs Hr Hp Hrp Hl HB HXY Hp25 HP HSa Hb.
  rewrite crypto_scrypt_ref_exact; auto; [|lia|].
  - rewrite scrypt_wrapping_small by auto. reflexivity.
  - constructor; auto; try lia. exists 0. split; [lia|reflexivity].
Qed.
Print Assumptions C22_reference_N1.
Example C22_N1_rejected_by_optimised hw junk smix env passwd salt buf :
  crypto_scrypt_internal 64 hw junk smix env passwd salt 1 8 1 buf 64 = Ok (SC_EINVAL, buf).
Proof. reflexivity. Qed.
(** ... and divides by zero when r = 0 or p = 0. *)
Theorem C22_reference_zero_refuted szb hw junk env passwd salt lg r p buf buflen :
  size_bits szb -> lg < 64 -> r < 2 ^ 32 -> p < 2 ^ 32 -> r = 0 \/ p = 0 -> buflen <= (2 ^ 32 - 1) * 32 ->
  crypto_scrypt_ref szb hw junk env passwd salt (2 ^ lg) r p buf buflen = UB.
Proof.
  intros Hs Hlg Hr Hp Hz Hl. unfold crypto_scrypt_ref.
  assert (scrypt_checks_ref szb (2 ^ lg) r p buflen = UB) as ->; [|reflexivity].
  unfold scrypt_checks_ref.
  destruct (N.ltb_spec ((2 ^ 32 - 1) * 32) buflen) as [|_]; [lia|]. rewrite andb_false_r.
  assert (r * p = 0) as -> by (destruct Hz as [-> | ->]; lia). change (N.shiftl 1 30 <=? w64 0) with false. cbv iota.
  assert (0 < 2 ^ lg < 2 ^ 64) as HN.
  { split; [pose proof (N.pow_nonzero 2 lg); lia|apply N.pow_lt_mono_r; lia]. }
  assert (N.land (2 ^ lg) (w64 (2 ^ 64 + 2 ^ lg - 1)) = 0) as -> by (apply pow2_ref; eauto).
  rewrite N.eqb_refl. cbn [negb orb]. destruct (N.eqb_spec (2 ^ lg) 0) as [|_]; [lia|].
  destruct (N.eqb_spec p 0) as [|Hp0]; [reflexivity|]. destruct Hz as [-> | ?]; [|contradiction].
  destruct (N.ltb_spec (SIZE_MAX szb / 128 / p) 0) as [Hx|_]; [exfalso; exact (N.nlt_0_r _ Hx)|].
  destruct (N.ltb_spec (SIZE_MAX szb / 256) 0) as [Hx|_]; [exfalso; exact (N.nlt_0_r _ Hx)|]. rewrite andb_false_r. reflexivity.
Qed.
Print Assumptions C22_reference_zero_refuted.

(** C23.  With arbitrary (possibly broken) routines: what is selected has
    reproduced the test vector, and SSE2 is selected only if built in and
    reported by the CPU. *)
Theorem C23_selected_routine_passed szb hw junk built cpu f_sse2 f_generic k rc buf c :
  crypto_scrypt szb hw junk built cpu f_sse2 f_generic None k = Ok (rc, buf, Some c) ->
  (exists env, crypto_scrypt_internal szb hw junk (smix_of f_sse2 f_generic c) env test_passwd test_salt 16 8 1
     (scratch_bytes junk 64) 64 = Ok (SC_OK, scrypt test_passwd test_salt 16 8 1 64)) /\
  (c = CHOICE_SSE2 -> built = true /\ cpu = true).
Proof.
  unfold crypto_scrypt.
  destruct (selectsmix szb hw junk built cpu f_sse2 f_generic (k_env1 k) (k_env2 k)) as [c0| |] eqn:ES; cbn [bind]; try discriminate.
  destruct (crypto_scrypt_internal _ _ _ _ _ _ _ _ _ _ _ _) as [[? ?]| |]; cbn [bind]; try discriminate.
  intros H. assert (c0 = c) as -> by congruence. rewrite test_vector. exact (select_tested _ _ _ _ _ _ _ _ _ _ ES).
Qed.
Print Assumptions C23_selected_routine_passed.
(** A routine that never produces the test vector is never in use after any
    history of calls starting with a fresh library. *)
Theorem C23_broken_sse2_never_used szb hw junk built cpu f_sse2 f_generic ks outs st :
  (forall env, crypto_scrypt_internal szb hw junk f_sse2 env test_passwd test_salt 16 8 1
     (scratch_bytes junk 64) 64 <> Ok (SC_OK, test_result)) ->
  scrypt_history szb hw junk built cpu f_sse2 f_generic None ks = Ok (outs, st) -> st <> Some CHOICE_SSE2.
Proof.
  intros Hbad. destruct ks as [|k ks]; cbn [scrypt_history]; [intros E; injection E as <- <-; discriminate|].
  destruct (crypto_scrypt szb hw junk built cpu f_sse2 f_generic None k) as [[[rc buf] st1]| |] eqn:E; cbn [bind]; try discriminate.
  destruct st1 as [c|].
  2: { unfold crypto_scrypt in E.
       destruct (selectsmix szb hw junk built cpu f_sse2 f_generic (k_env1 k) (k_env2 k)) as [c0| |]; cbn [bind] in E; try discriminate.
       destruct (crypto_scrypt_internal _ _ _ _ _ _ _ _ _ _ _ _) as [[? ?]| |]; cbn [bind] in E; discriminate. }
  apply C23_selected_routine_passed in E. destruct E as [[env E] _]. rewrite test_vector in E.
  destruct (scrypt_history szb hw junk built cpu f_sse2 f_generic (Some c) ks) as [[o s]| |] eqn:EH; cbn [bind]; try discriminate.
  intros H. assert (s = st) as <- by congruence.
  apply hist_stable in EH. subst s. intros HC. injection HC as ->. exact (Hbad env E).
Qed.
Print Assumptions C23_broken_sse2_never_used.
(** Example of a broken unit: one that returns its block unchanged. *)
Definition broken_smix : smix_fn := fun B _ _ V XY => Ok (B, V, XY).
Example C23_broken_hyps env :
  crypto_scrypt_internal 64 HW_SOFTWARE (fun _ => 0) broken_smix env test_passwd test_salt 16 8 1
     (scratch_bytes (fun _ => 0) 64) 64 <> Ok (SC_OK, test_result).
Proof. destruct env as [[|] [|] [|] [|]]; vm_compute; discriminate. Qed.
(** Once made, the choice is never changed by any sequence of calls. *)
Theorem C23_choice_stable szb hw junk built cpu f_sse2 f_generic c ks outs st :
  scrypt_history szb hw junk built cpu f_sse2 f_generic (Some c) ks = Ok (outs, st) -> st = Some c.
Proof. exact (hist_stable szb hw junk built cpu f_sse2 f_generic c ks outs st). Qed.
Print Assumptions C23_choice_stable.
(** With the real routines the process never aborts, whatever the call
    arguments, provided the generic self-test finds memory in the first call. *)
Definition call_ok (szb : N) (k : scrypt_call) : Prop :=
  bytes_ok (k_passwd k) /\ bytes_ok (k_salt k) /\ (N.to_nat (k_buflen k) <= length (k_buf k))%nat /\
  k_N k < 2 ^ 64 /\ k_r k < 2 ^ 32 /\ k_p k < 2 ^ 32 /\ k_buflen k < 2 ^ szb.
Lemma call_total szb hw junk c k : size_bits szb -> call_ok szb k ->
  exists rc buf, crypto_scrypt_internal szb hw junk (smix_of crypto_scrypt_smix_sse2 crypto_scrypt_smix c) (k_env k)
     (k_passwd k) (k_salt k) (k_N k) (k_r k) (k_p k) (k_buf k) (k_buflen k) = Ok (rc, buf).
Proof.
  intros Hs (H1 & H2 & H3 & H4 & H5 & H6 & H7).
  destruct (scrypt_checks szb (k_N k) (k_r k) (k_p k) (k_buflen k)) as [e|] eqn:E.
  - unfold crypto_scrypt_internal. rewrite E. eauto.
  - apply scrypt_checks_spec in E; auto.
    destruct (internal_total szb hw junk _ (k_passwd k) (k_salt k) (k_N k) (k_r k) (k_p k) (k_buf k) (k_buflen k) (k_env k)
      (routine_correct c) Hs H6 E H1 H2 H3) as (rc & b & -> & _). eauto.
Qed.
Theorem C23_never_aborts szb hw junk built cpu ks :
  size_bits szb -> Forall (call_ok szb) ks ->
  (match ks with k :: _ => k_env2 k = mk_alloc true true true true | [] => True end) ->
  exists outs st, the_history szb hw junk built cpu None ks = Ok (outs, st).
Proof.
  intros Hs HK He. unfold the_history.
  assert (forall c ks, Forall (call_ok szb) ks -> exists outs st,
    scrypt_history szb hw junk built cpu crypto_scrypt_smix_sse2 crypto_scrypt_smix (Some c) ks = Ok (outs, st)) as HS.
  { intros c. induction ks0 as [|k ks0 IH]; intros HF; cbn [scrypt_history]; [eauto|].
    inversion HF as [|? ? Hk HF']; subst. unfold crypto_scrypt. rewrite bind_Ok.
    destruct (call_total szb hw junk c k Hs Hk) as (rc & b & ->). rewrite !bind_Ok.
    destruct (IH HF') as (o & s & ->). rewrite bind_Ok. eauto. }
  destruct ks as [|k ks]; cbn [scrypt_history]; [eauto|].
  inversion HK as [|? ? Hk HF']; subst. unfold crypto_scrypt.
  destruct (first_select szb hw junk built cpu k Hs He) as [c ->]. rewrite bind_Ok.
  destruct (call_total szb hw junk c k Hs Hk) as (rc & b & ->). rewrite !bind_Ok.
  destruct (HS c ks HF') as (o & s & ->). rewrite bind_Ok. eauto.
Qed.
Print Assumptions C23_never_aborts.
Example C23_hyps : call_ok 64 (mk_call (mk_alloc false true true true) (mk_alloc true true true true) (mk_alloc true true false true)
   [1; 2] [3] 15 8 1 (repeat 0 64) 64).
Proof. repeat split; try (vm_compute; congruence); repeat constructor. Qed.
(** If the self-tests find no memory, the first call aborts the process
    instead of returning -1. *)
Theorem C23_no_memory_aborts szb hw junk cpu built f_sse2 f_generic env1 env2 env passwd salt N_ r p buf buflen :
  size_bits szb -> al_B env1 = false -> al_B env2 = false ->
  crypto_scrypt szb hw junk built cpu f_sse2 f_generic None (mk_call env1 env2 env passwd salt N_ r p buf buflen) = Abort.
Proof.
  intros Hs H1 H2. unfold crypto_scrypt, selectsmix, selectsmix_generic, testsmix. cbn [k_env1 k_env2].
  assert (forall env f, al_B env = false ->
    crypto_scrypt_internal szb hw junk f env test_passwd test_salt 16 8 1 (scratch_bytes junk 64) 64 =
      Ok (SC_ENOMEM, scratch_bytes junk 64)) as HE.
  { intros e f He. unfold crypto_scrypt_internal.
    assert (scrypt_checks szb 16 8 1 64 = None) as -> by (destruct Hs as [-> | ->]; reflexivity).
    rewrite He. reflexivity. }
  rewrite !HE by assumption. rewrite !bind_Ok.
  destruct (built && cpu); reflexivity.
Qed.
Print Assumptions C23_no_memory_aborts.
