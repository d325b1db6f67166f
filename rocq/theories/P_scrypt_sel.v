(** crypto_scrypt (with selection) and the reference crypto_scrypt. *)
From Verif Require Import Base SpecBytes SpecSHA SpecScrypt SpecScryptAPI M_endian P_endian M_sha256_tr M_simd
  M_sha256_hw M_sha256 P_sha256_tr P_sha256_hw P_sha256 M_smix P_salsa P_smix P_smix2 P_smix_sse2 P_scrypt
  P_scrypt_ref M_scrypt_sel.

(** The built-in test vector is the RFC 7914 value. *)
Lemma test_vector : scrypt test_passwd test_salt 16 8 1 64 = test_result.
Proof. vm_cast_no_check (eq_refl test_result). Qed.

Lemma test_passwd_ok : bytes_ok test_passwd /\ bytes_ok test_salt.
Proof. split; repeat constructor. Qed.

Lemma test_valid szb : size_bits szb -> scrypt_valid szb 16 8 1 64.
Proof.
  intros Hs. assert (2 ^ 32 <= 2 ^ szb) by (destruct Hs as [-> | ->]; apply N.pow_le_mono_r; lia).
  constructor; try lia. exists 4. split; [lia|reflexivity].
Qed.

Definition all_ok (e : alloc_env) : Prop := e = mk_alloc true true true true.
Lemma crypto_scrypt_internal_spec szb hw junk smix passwd salt N_ r p buf buflen env :
  smix_correct smix -> size_bits szb -> all_ok env -> scrypt_valid szb N_ r p buflen -> p <= 2 ^ 25 ->
  bytes_ok passwd -> bytes_ok salt -> (N.to_nat buflen <= length buf)%nat ->
  crypto_scrypt_internal szb hw junk smix env passwd salt N_ r p buf buflen =
    Ok (SC_OK, scrypt passwd salt N_ r p (N.to_nat buflen) ++ skipn (N.to_nat buflen) buf).
Proof.
  intros HS Hs -> Hv Hp HP HSa Hb. rewrite crypto_scrypt_internal_exact; auto; [|lia].
  rewrite scrypt_wrapping_small; auto. apply Hv.
Qed.

Lemma testsmix_good szb hw junk f env : smix_correct f -> size_bits szb -> all_ok env ->
  testsmix szb hw junk env f = Ok true.
Proof.
  intros Hf Hs He. unfold testsmix.
  assert (N.to_nat 64 <= length (scratch_bytes junk 64))%nat as HL by (rewrite scratch_bytes_length; lia).
  rewrite (crypto_scrypt_internal_spec szb hw junk f test_passwd test_salt 16 8 1 (scratch_bytes junk 64) 64 env
    Hf Hs He (test_valid szb Hs) ltac:(lia) (proj1 test_passwd_ok) (proj2 test_passwd_ok) HL).
  change (N.to_nat 64) with 64%nat. rewrite test_vector.
  rewrite skipn_all2 by (rewrite scratch_bytes_length; lia). rewrite app_nil_r.
  rewrite bind_Ok. rewrite list_eqb_refl. reflexivity.
Qed.

Lemma testsmix_true_inv szb hw junk f env : testsmix szb hw junk env f = Ok true ->
  crypto_scrypt_internal szb hw junk f env test_passwd test_salt 16 8 1 (scratch_bytes junk 64) 64 = Ok (SC_OK, test_result).
Proof.
  unfold testsmix.
  destruct (crypto_scrypt_internal szb hw junk f env test_passwd test_salt 16 8 1 (scratch_bytes junk 64) 64)
    as [[rc hbuf]| |]; cbn [bind]; try discriminate.
  destruct rc; try discriminate. intros H0.
  assert (list_eqb test_result hbuf = true) as H by congruence. apply list_eqb_spec in H. subst. reflexivity.
Qed.

(* ---------------- the reference implementation ---------------- *)
Lemma smix_all_ref_eq szb r p N_ : forall fuel i B V XY,
  smix_all_ref szb fuel i p r N_ B V XY = smix_all szb smix_ref fuel i p r N_ B V XY.
Proof.
  induction fuel as [|fuel IH]; intros i B V XY; cbn [smix_all_ref smix_all]; auto.
  destruct (i <? p); auto. apply bind_ext; intros Bi. apply bind_ext; intros [[Bj V'] XY'].
  apply bind_ext; intros B'. apply IH.
Qed.

Lemma pow2_ref N_ : 0 < N_ < 2 ^ 64 ->
  (N.land N_ (w64 (2 ^ 64 + N_ - 1)) = 0 <-> exists lg, lg < 64 /\ N_ = 2 ^ lg).
Proof.
  intros H. destruct (N.eq_dec N_ 1) as [->|Hne].
  - split; intros _; [exists 0; split; [lia|reflexivity]|reflexivity].
  - rewrite land_pred_pow2 by lia. split; intros (lg & H1 & H2); exists lg; split; try lia; auto.
    destruct (N.eq_dec lg 0) as [->|]; [rewrite N.pow_0_r in H2; lia|lia].
Qed.

(** Validity for the reference code: as scrypt_valid, but N = 1 is accepted
    and the scratch area is 64 bytes smaller. *)
Record scrypt_valid_ref (szb N_ r p buflen : N) : Prop := mk_valid_ref {
  vr_r : 0 < r;
  vr_p : 0 < p;
  vr_N : exists lg, lg < 64 /\ N_ = 2 ^ lg;
  vr_rp : r * p < 2 ^ 30;
  vr_len : buflen <= (2 ^ 32 - 1) * 32;
  vr_B : 128 * r * p < 2 ^ szb;
  vr_XY : 256 * r < 2 ^ szb;
  vr_V : 128 * r * N_ < 2 ^ szb }.

Lemma scrypt_checks_ref_none szb N_ r p buflen : size_bits szb -> scrypt_valid_ref szb N_ r p buflen ->
  scrypt_checks_ref szb N_ r p buflen = Ok None.
Proof.
  intros Hs [Hr Hp (lg & Hlg & EN) Hrp Hl HB HXY HV]. unfold scrypt_checks_ref.
  assert (1 <= N_) as HN1 by (subst N_; pose proof (N.pow_nonzero 2 lg); lia).
  assert (SIZE_MAX szb + 1 = 2 ^ szb) as HSM by (unfold SIZE_MAX; pose proof (N.pow_nonzero 2 szb ltac:(lia)); lia).
  destruct (N.ltb_spec ((2 ^ 32 - 1) * 32) buflen) as [|_]; [lia|]. rewrite andb_false_r.
  rewrite (w64_small (r * p)) by lia. change (N.shiftl 1 30) with (2 ^ 30).
  destruct (N.leb_spec (2 ^ 30) (r * p)) as [|_]; [lia|].
  assert (N_ < 2 ^ 64) by (subst N_; apply N.pow_lt_mono_r; lia).
  assert (N.land N_ (w64 (2 ^ 64 + N_ - 1)) = 0) as -> by (apply pow2_ref; [lia|eauto]).
  rewrite N.eqb_refl. cbn [negb orb].
  destruct (N.eqb_spec N_ 0) as [|_]; [lia|]. destruct (N.eqb_spec p 0) as [|_]; [lia|].
  destruct (N.eqb_spec r 0) as [|_]; [lia|].
  rewrite !div_div_lt by lia. rewrite div_lt_1 by lia.
  destruct (N.ltb_spec (SIZE_MAX szb) (128 * r * p)) as [|_]; [lia|].
  destruct (N.ltb_spec (SIZE_MAX szb) (256 * r)) as [|_]; [lia|]. rewrite andb_false_r.
  destruct (N.ltb_spec (SIZE_MAX szb) (128 * N_ * r)) as [|_]; [lia|]. reflexivity.
Qed.

Lemma smix_ref_at r lg : 0 < r -> lg < 64 ->
  smix_correct_at smix_ref (N.to_nat r) lg (N.to_nat (2 ^ lg) * (128 * N.to_nat r))
    (fun XY => length XY = (256 * N.to_nat r)%nat /\ bytes_ok XY).
Proof.
  intros Hr Hlg B V XY HB Hok HV [HXY HO].
  destruct (smix_ref_correct (N.to_nat r) lg ltac:(lia) Hlg B V XY (conj HB Hok) HV HXY HO) as (V' & XY' & E & L1 & L2 & O2).
  exists V', XY'. split; [exact E|]. split; [exact L1|]. split; [lia|exact O2].
Qed.

Theorem crypto_scrypt_ref_exact szb hw junk passwd salt N_ r p buf buflen unmap :
  size_bits szb -> p < 2 ^ 32 -> scrypt_valid_ref szb N_ r p buflen ->
  bytes_ok passwd -> bytes_ok salt -> (N.to_nat buflen <= length buf)%nat ->
  crypto_scrypt_ref szb hw junk (mk_alloc true true true unmap) passwd salt N_ r p buf buflen =
    Ok (SC_OK, scrypt_wrapping passwd salt N_ r p (N.to_nat buflen) ++ skipn (N.to_nat buflen) buf).
Proof.
  intros Hs Hp32 Hv HP HSa Hbuf. unfold crypto_scrypt_ref.
  rewrite scrypt_checks_ref_none by auto. rewrite bind_Ok.
  pose proof Hv as [Vr Vp (lg & Hlg & EN) Vrp Vl VB VXY VV].
  assert (1 <= N_) as HN1 by (subst N_; pose proof (N.pow_nonzero 2 lg); lia).
  assert (2 ^ szb <= 2 ^ 64) by (destruct Hs as [-> | ->]; apply N.pow_le_mono_r; lia).
  cbn [al_B al_XY al_V negb].
  assert (size_B szb r p = p * 128 * r) as -> by (unfold size_B, wsz; rewrite (N.mod_small (128 * r)) by nia; rewrite N.mod_small by lia; lia).
  assert (wsz szb (wsz szb (p * 128) * r) = p * 128 * r) as -> by (unfold wsz; rewrite (N.mod_small (p * 128)) by nia; apply N.mod_small; lia).
  assert (wsz szb (256 * r) = 256 * r) as -> by (apply N.mod_small; lia).
  assert (size_V szb r N_ = 128 * r * N_) as ->.
  { unfold size_V, wsz. rewrite (N.mod_small (128 * r)) by nia. rewrite w64_small by lia. apply N.mod_small. lia. }
  rewrite PBKDF2_SHA256_correct; auto; [|lia|rewrite scratch_bytes_length; lia]. rewrite bind_Ok.
  rewrite skipn_all2 by (rewrite scratch_bytes_length; lia). rewrite app_nil_r.
  destruct (pbkdf2_facts passwd salt 1 (N.to_nat (p * 128 * r))) as [BL BO].
  rewrite smix_all_ref_eq. unfold scrypt_wrapping. cbv zeta.
  set (B := pbkdf2 passwd salt 1 (N.to_nat (p * 128 * r))) in *.
  set (L := N.to_nat (128 * r)).
  assert (0 < L)%nat as HL by (unfold L; lia).
  destruct (chunks_good L (N.to_nat p) B HL ltac:(unfold L; lia) BO) as [HG C1].
  destruct (smix_all_ok szb smix_ref r p lg _ _ (smix_ref_at r lg Vr Hlg)
     Hs Vr Hp32 VB Hlg (N.to_nat p) (N.to_nat p) 0 (chunks L B)
     (scratch_bytes junk (N.to_nat (128 * r * N_))) (scratch_bytes junk (N.to_nat (256 * r)))) as [E HG2];
    rewrite ?mixed_0; auto; try lia; try (rewrite scratch_bytes_length; subst N_; lia).
  { split; [rewrite scratch_bytes_length; lia|apply scratch_bytes_ok]. }
  rewrite mixed_0, concat_chunks, <- EN in E by exact HL. rewrite E. rewrite bind_Ok. rewrite <- EN in HG2.
  destruct (blocks_good_concat _ _ HG2) as [CO CL].
  assert (length (concat (mixed (scryptROMix N_) p (chunks L B))) = N.to_nat (p * 128 * r)) as LB.
  { rewrite CL, mixed_length, C1. unfold L. lia. }
  rewrite rd_all by (symmetry; exact LB). rewrite bind_Ok.
  rewrite PBKDF2_SHA256_correct; auto; try lia.
Qed.

(* ---------------- histories ---------------- *)
Section Hist.
  Context (szb : N) (hw : sha_hw) (junk : nat -> N) (sse2_built cpu_sse2 : bool) (f_sse2 f_generic : smix_fn).
  Notation cs := (crypto_scrypt szb hw junk sse2_built cpu_sse2 f_sse2 f_generic).
  Notation hist := (scrypt_history szb hw junk sse2_built cpu_sse2 f_sse2 f_generic).
  Lemma cs_state_some c k rc buf st : cs (Some c) k = Ok (rc, buf, st) -> st = Some c.
  Proof.
    unfold crypto_scrypt. cbn [bind].
    destruct (crypto_scrypt_internal _ _ _ _ _ _ _ _ _ _ _ _) as [[? ?]| |]; cbn [bind]; try discriminate.
    intros H; injection H; auto.
  Qed.
  Lemma hist_stable c ks outs st : hist (Some c) ks = Ok (outs, st) -> st = Some c.
  Proof.
    revert outs st; induction ks as [|k ks IH]; intros outs st; cbn [scrypt_history].
    - intros H; injection H; auto.
    - destruct (cs (Some c) k) as [[[rc buf] st1]| |] eqn:E; cbn [bind]; try discriminate.
      apply cs_state_some in E. subst st1.
      destruct (hist (Some c) ks) as [[o s]| |] eqn:E2; cbn [bind]; try discriminate.
      intros H; injection H as <- <-. eapply IH. reflexivity.
  Qed.
  Lemma hist_app st ks1 ks2 : hist st (ks1 ++ ks2) =
    (' (o1, s1) <- hist st ks1 ;; ' (o2, s2) <- hist s1 ks2 ;; Ok (o1 ++ o2, s2)).
  Proof.
    revert st; induction ks1 as [|k ks IH]; intros st; cbn [app scrypt_history bind].
    - destruct (hist st ks2) as [[? ?]| |]; reflexivity.
    - destruct (cs st k) as [[[rc buf] st1]| |]; cbn [bind]; auto. rewrite IH.
      destruct (hist st1 ks) as [[o s]| |]; cbn [bind]; auto.
      destruct (hist s ks2) as [[o2 s2]| |]; reflexivity.
  Qed.
  (** A routine is selected only after it reproduced the test vector. *)
  Lemma select_tested env1 env2 c : selectsmix szb hw junk sse2_built cpu_sse2 f_sse2 f_generic env1 env2 = Ok c ->
    (exists env, crypto_scrypt_internal szb hw junk (smix_of f_sse2 f_generic c) env test_passwd test_salt 16 8 1
       (scratch_bytes junk 64) 64 = Ok (SC_OK, test_result)) /\
    (c = CHOICE_SSE2 -> sse2_built = true /\ cpu_sse2 = true).
  Proof.
    unfold selectsmix, selectsmix_generic. intros H.
    assert (forall c0, (ok <- testsmix szb hw junk env2 f_generic ;; (if ok then Ok CHOICE_GENERIC else Abort)) = Ok c0 ->
       c0 = CHOICE_GENERIC /\ testsmix szb hw junk env2 f_generic = Ok true) as HG.
    { intros c0. destruct (testsmix szb hw junk env2 f_generic) as [[|]| |]; cbn [bind]; try discriminate.
      intros E; injection E; auto. }
    destruct (sse2_built && cpu_sse2) eqn:EB.
    - apply andb_true_iff in EB.
      destruct (testsmix szb hw junk env1 f_sse2) as [[|]| |] eqn:ET; cbn [bind] in H; try discriminate.
      + injection H as <-. split; [exists env1; apply testsmix_true_inv; exact ET|auto].
      + apply HG in H. destruct H as [-> E]. split; [exists env2; apply testsmix_true_inv; exact E|discriminate].
    - apply HG in H. destruct H as [-> E]. split; [exists env2; apply testsmix_true_inv; exact E|discriminate].
  Qed.
  Lemma select_ok env1 env2 : smix_correct f_generic -> size_bits szb -> all_ok env2 ->
    (sse2_built && cpu_sse2 = true -> exists b, testsmix szb hw junk env1 f_sse2 = Ok b) ->
    exists c, selectsmix szb hw junk sse2_built cpu_sse2 f_sse2 f_generic env1 env2 = Ok c.
  Proof.
    intros HG Hs He HT. unfold selectsmix, selectsmix_generic.
    rewrite (testsmix_good szb hw junk f_generic env2) by auto.
    destruct (sse2_built && cpu_sse2); [|rewrite bind_Ok; eauto].
    destruct (HT eq_refl) as [b ->]. rewrite !bind_Ok. destruct b; eauto.
  Qed.
End Hist.

Definition call_all_ok (k : scrypt_call) : Prop := all_ok (k_env1 k) /\ all_ok (k_env2 k) /\ all_ok (k_env k).
