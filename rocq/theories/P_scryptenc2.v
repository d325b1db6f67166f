(** Proofs about the scryptenc.c model: header checks, key objects, loops. *)
From Verif Require Import Base SpecBytes SpecSHA SpecScrypt SpecScryptAPI SpecAES SpecDRBG SpecFormat SpecStream
  M_endian P_endian M_sha256_tr M_simd M_sha256_hw M_sha256 P_sha256 M_smix M_aes_hw M_aesctr P_aesctr P_scrypt P_scrypt_ref
  M_scrypt_sel P_scrypt_sel Prop_scrypt M_verify P_verify M_entropy P_entropy M_machine M_double M_memlimit M_cpuperf
  M_humansize M_params M_stdio P_stdio M_scryptenc SpecScryptenc P_scryptenc.

(** ** scryptdec_setup *)

Lemma be32dec_be_val f o : bytes_ok f -> (o + 4 <= length f)%nat ->
  be32dec (sub f o 4) = be_val (sub f o 4) /\ be_val (sub f o 4) < 2 ^ 32.
Proof.
  intros HO HL. assert (length (sub f o 4) = 4%nat) as L4 by (apply sub_length; exact HL).
  assert (bytes_ok (sub f o 4)) as O4 by (apply bytes_ok_sub, HO).
  split; [apply be32dec_spec; assumption|].
  destruct (sub f o 4) as [|a [|b [|c [|d [|]]]]]; try discriminate L4.
  unfold be_val. cbn [fold_left]. unfold bytes_ok in O4. repeat match goal with H : Forall _ (_ :: _) |- _ => inversion H; clear H; subst end.
  change (2 ^ 32) with 4294967296. lia.
Qed.

Section Dec.
  Context (M : machine) (cfg : clk_cfg).
  Inductive dec_setup_result (lb : lib) (e : call_env) (lim : limits) (passwd f : bytes) (verbose force : bool)
    : lib -> list msg -> bytes -> rcode -> Prop :=
  | DS_checksum dk : ~ checksum_ok f -> dec_setup_result lb e lim passwd f verbose force lb [] dk SCRYPT_EINVAL
  | DS_params dk sst m rc : checksum_ok f -> rc <> SCRYPT_OK ->
      checkparams M cfg (lb_smix lb) (v_params e) lim (Z.of_N (fh_logN (get_head f))) (fh_r (get_head f)) (fh_p (get_head f)) verbose force = Ok (sst, m, rc) ->
      dec_setup_result lb e lim passwd f verbose force (mk_lib sst (lb_drbg lb)) (opt_msg m) dk rc
  | DS_key dk sst m lb' : checksum_ok f ->
      checkparams M cfg (lb_smix lb) (v_params e) lim (Z.of_N (fh_logN (get_head f))) (fh_r (get_head f)) (fh_p (get_head f)) verbose force = Ok (sst, m, SCRYPT_OK) ->
      (computable M (get_head f) -> v_kdf e <> mk_alloc true true true true) ->
      lb_drbg lb' = lb_drbg lb ->
      dec_setup_result lb e lim passwd f verbose force lb' (opt_msg m) dk SCRYPT_EKEY
  | DS_pass sst m lb' : checksum_ok f ->
      checkparams M cfg (lb_smix lb) (v_params e) lim (Z.of_N (fh_logN (get_head f))) (fh_r (get_head f)) (fh_p (get_head f)) verbose force = Ok (sst, m, SCRYPT_OK) ->
      computable M (get_head f) -> ~ passphrase_ok passwd f -> lb_drbg lb' = lb_drbg lb ->
      dec_setup_result lb e lim passwd f verbose force lb' (opt_msg m) (fmt_keys kdf passwd (get_head f)) SCRYPT_EPASS
  | DS_ok sst m lb' : checksum_ok f ->
      checkparams M cfg (lb_smix lb) (v_params e) lim (Z.of_N (fh_logN (get_head f))) (fh_r (get_head f)) (fh_p (get_head f)) verbose force = Ok (sst, m, SCRYPT_OK) ->
      computable M (get_head f) -> passphrase_ok passwd f -> lb_drbg lb' = lb_drbg lb ->
      dec_setup_result lb e lim passwd f verbose force lb' (opt_msg m) (fmt_keys kdf passwd (get_head f)) SCRYPT_OK.

  (** The part before the key derivation. *)
  Lemma scryptdec_setup_eq lb e P f dk passwd verbose force :
    bytes_ok f -> (96 <= length f)%nat ->
    let h := get_head f in
    let P' := P_of (x_lim P) h in
    scryptdec_setup M cfg lb e P f dk passwd verbose force =
    (if negb (list_eqb (sub f 48 16) (firstn 16 (sha256 (firstn 48 f)))) then Ok (lb, [], P', dk, SCRYPT_EINVAL) else
     ' (sst, m, rc) <- checkparams M cfg (lb_smix lb) (v_params e) (x_lim P) (Z.of_N (fh_logN h)) (fh_r h) (fh_p h) verbose force ;;
     let lb := mk_lib sst (lb_drbg lb) in
     if negb (is_ok rc) then Ok (lb, opt_msg m, P', dk, rc) else
     ' (ok, dk, lb) <- derive M lb e passwd (fh_salt h) (w64 (N.shiftl 1 (fh_logN h))) (fh_r h) (fh_p h) dk ;;
     if negb ok then Ok (lb, opt_msg m, P', dk, SCRYPT_EKEY) else
     key_hmac <- rd dk 32 32 ;;
     h64 <- rd f 0 64 ;;
     hbuf <- hmac_once M key_hmac h64 ;;
     sig <- rd f 64 32 ;;
     v <- crypto_verify_bytes hbuf sig 32 ;;
     if negb (v =? 0) then Ok (lb, opt_msg m, P', dk, SCRYPT_EPASS) else
     Ok (lb, opt_msg m, P', dk, SCRYPT_OK)).
  Proof.
    intros HO HL h P'. unfold scryptdec_setup.
    rewrite rd1 by lia. rewrite bind_Ok. do 3 (rewrite rd_ok by lia; rewrite bind_Ok).
    destruct (be32dec_be_val f 8 HO ltac:(lia)) as [-> _]. destruct (be32dec_be_val f 12 HO ltac:(lia)) as [-> _].
    rewrite rd_ok by lia. rewrite bind_Ok.
    rewrite sha_once_ok by (apply bytes_ok_sub, HO). rewrite bind_Ok. rewrite rd_ok by lia. rewrite bind_Ok.
    change (sub f 0 48) with (firstn 48 f).
    destruct (verify_prefix (sub f 48 16) (sha256 (firstn 48 f)) 16) as (v & -> & HV).
    { apply bytes_ok_sub, HO. } { apply sha256_ok. } { rewrite sub_length; lia. } { rewrite sha256_length; lia. }
    rewrite bind_Ok, HV. rewrite (firstn_all2 (sub f 48 16)) by (rewrite sub_length; lia).
    cbn [x_lim x_logN x_r x_p]. unfold sel. cbn [nth]. rewrite N2Z.id. reflexivity.
  Qed.

  Lemma scryptdec_setup_inv lb e P f dk passwd verbose force lb' ms P' dk' rc :
    size_bits (m_szb M) -> bytes_ok passwd -> bytes_ok f -> (96 <= length f)%nat ->
    length dk = 64%nat -> bytes_ok dk ->
    scryptdec_setup M cfg lb e P f dk passwd verbose force = Ok (lb', ms, P', dk', rc) ->
    P' = P_of (x_lim P) (get_head f) /\ length dk' = 64%nat /\ lb_drbg lb' = lb_drbg lb /\
    dec_setup_result lb e (x_lim P) passwd f verbose force lb' ms dk' rc.
  Proof.
    intros Hs HPW HO HL HLD HOD E. rewrite (scryptdec_setup_eq lb e P f dk passwd verbose force HO HL) in E. cbv zeta in E.
    set (h := get_head f) in *. set (Px := P_of (x_lim P) h) in *.
    assert (fh_r h < 2 ^ 32 /\ fh_p h < 2 ^ 32) as [HR HPP].
    { split; [apply (proj2 (be32dec_be_val f 8 HO ltac:(lia)))|apply (proj2 (be32dec_be_val f 12 HO ltac:(lia)))]. }
    assert (length (fh_salt h) = 32%nat /\ bytes_ok (fh_salt h)) as [HSL HSO].
    { split; [apply sub_length; lia|apply bytes_ok_sub, HO]. }
    destruct (list_eqb (sub f 48 16) (firstn 16 (sha256 (firstn 48 f)))) eqn:EC; cbn [negb] in E.
    2:{ apply list_eqb_false in EC. assert (lb' = lb /\ ms = [] /\ P' = Px /\ dk' = dk /\ rc = SCRYPT_EINVAL) as (-> & -> & -> & -> & ->) by (repeat split; congruence).
        split; [reflexivity|]. split; [exact HLD|]. split; [reflexivity|]. constructor. exact EC. }
    apply list_eqb_spec in EC.
    apply bind_inv in E. destruct E as ([[sst m] rc1] & EP & E).
    destruct (is_ok rc1) eqn:EO; cbn [negb] in E.
    2:{ apply is_ok_false in EO.
        assert (lb' = mk_lib sst (lb_drbg lb) /\ ms = opt_msg m /\ P' = Px /\ dk' = dk /\ rc = rc1) as (-> & -> & -> & -> & ->) by (repeat split; congruence).
        split; [reflexivity|]. split; [exact HLD|]. split; [reflexivity|]. apply DS_params; assumption. }
    apply is_ok_spec in EO. subst rc1.
    pose proof (checkparams_ok_range M cfg _ _ _ _ _ _ _ _ _ _ _ HR HPP EP ltac:(discriminate)) as (HLN & H1 & H2 & H3).
    assert (fh_logN h <= 63) as HL63 by lia. rewrite one_shl in E by exact HL63.
    assert (2 ^ fh_logN h < 2 ^ 64) as HN64 by (apply N.pow_lt_mono_r; lia).
    apply bind_inv in E. destruct E as ([[ok dk1] lb1] & ED & E).
    apply derive_inv in ED; auto. destruct ED as (D1 & L1 & O1 & HT & HF). cbn [lb_drbg] in D1.
    destruct ok; cbn [negb] in E.
    2:{ assert (lb' = lb1 /\ ms = opt_msg m /\ P' = Px /\ dk' = dk1 /\ rc = SCRYPT_EKEY) as (-> & -> & -> & -> & ->) by (repeat split; congruence).
        split; [reflexivity|]. split; [exact L1|]. split; [exact D1|]. eapply DS_key; eauto. }
    destruct (HT eq_refl) as [HV HK].
    assert (dk1 = fmt_keys kdf passwd h) as HK' by exact HK. clear HK. subst dk1. clear HT HF L1 O1.
    rewrite key_hmac_rd, bind_Ok in E. rewrite rd_ok in E by lia. rewrite bind_Ok in E.
    rewrite hmac_once_ok in E by (auto using key_hmac_ok, bytes_ok_sub). rewrite bind_Ok in E.
    rewrite rd_ok in E by lia. rewrite bind_Ok in E.
    change (sub f 0 64) with (firstn 64 f) in E.
    destruct (verify_prefix (hmac (key_hmac kdf passwd h) (firstn 64 f)) (sub f 64 32) 32) as (v & EV & HVV).
    { apply hmac_ok. } { apply bytes_ok_sub, HO. } { rewrite hmac_length; lia. } { rewrite sub_length; lia. }
    rewrite EV, bind_Ok, HVV in E. clear EV HVV.
    rewrite (firstn_all2 (hmac _ _)) in E by (rewrite hmac_length; lia). rewrite (firstn_all2 (sub f 64 32)) in E by (rewrite sub_length; lia).
    split; [|split; [|split]].
    1: destruct (negb _) in E; congruence.
    1: destruct (negb _) in E; assert (dk' = fmt_keys kdf passwd h) as -> by congruence; apply keys_length.
    1: destruct (negb _) in E; assert (lb' = lb1) as -> by congruence; exact D1.
    destruct (list_eqb (hmac (key_hmac kdf passwd h) (firstn 64 f)) (sub f 64 32)) eqn:EP2; cbn [negb] in E.
    - apply list_eqb_spec in EP2. assert (lb' = lb1 /\ ms = opt_msg m /\ dk' = fmt_keys kdf passwd h /\ rc = SCRYPT_OK) as (-> & -> & -> & ->) by (repeat split; congruence).
      eapply DS_ok; eauto. unfold passphrase_ok. auto.
    - apply list_eqb_false in EP2. assert (lb' = lb1 /\ ms = opt_msg m /\ dk' = fmt_keys kdf passwd h /\ rc = SCRYPT_EPASS) as (-> & -> & -> & ->) by (repeat split; congruence).
      eapply DS_pass; eauto.
  Qed.

  (** It returns normally if the parameter check does and the self-test of a first call passes. *)
  Lemma scryptdec_setup_total lb e P f dk passwd verbose force sst m rc :
    size_bits (m_szb M) -> bytes_ok passwd -> bytes_ok f -> (96 <= length f)%nat ->
    length dk = 64%nat -> bytes_ok dk ->
    checkparams M cfg (lb_smix lb) (v_params e) (x_lim P) (Z.of_N (fh_logN (get_head f))) (fh_r (get_head f)) (fh_p (get_head f)) verbose force = Ok (sst, m, rc) ->
    all_ok (v_kdf2 e) ->
    exists lb' ms P' dk' rc', scryptdec_setup M cfg lb e P f dk passwd verbose force = Ok (lb', ms, P', dk', rc').
  Proof.
    intros Hs HPW HO HL HLD HOD EP H2. rewrite (scryptdec_setup_eq lb e P f dk passwd verbose force HO HL). cbv zeta.
    set (h := get_head f) in *.
    assert (fh_r h < 2 ^ 32 /\ fh_p h < 2 ^ 32) as [HR HPP].
    { split; [apply (proj2 (be32dec_be_val f 8 HO ltac:(lia)))|apply (proj2 (be32dec_be_val f 12 HO ltac:(lia)))]. }
    assert (length (fh_salt h) = 32%nat /\ bytes_ok (fh_salt h)) as [HSL HSO].
    { split; [apply sub_length; lia|apply bytes_ok_sub, HO]. }
    destruct (negb _); [eauto 8|]. rewrite EP, bind_Ok.
    destruct (is_ok rc) eqn:EO; cbn [negb]; [|eauto 8].
    apply is_ok_spec in EO. subst rc.
    pose proof (checkparams_ok_range M cfg _ _ _ _ _ _ _ _ _ _ _ HR HPP EP ltac:(discriminate)) as (HLN & H1 & H2' & H3).
    assert (fh_logN h <= 63) as HL63 by lia. rewrite one_shl by exact HL63.
    assert (2 ^ fh_logN h < 2 ^ 64) as HN64 by (apply N.pow_lt_mono_r; lia).
    destruct (derive_total M (mk_lib sst (lb_drbg lb)) e passwd (fh_salt h) (2 ^ fh_logN h) (fh_r h) (fh_p h) dk) as (ok & dk1 & lb1 & ED); auto.
    rewrite ED, bind_Ok. apply derive_inv in ED; auto. destruct ED as (D1 & L1 & O1 & _).
    destruct ok; cbn [negb]; [|eauto 8].
    do 2 (rewrite rd_ok by lia; rewrite bind_Ok). rewrite hmac_once_ok by (auto using bytes_ok_sub). rewrite bind_Ok.
    rewrite rd_ok by lia. rewrite bind_Ok.
    match goal with |- context [crypto_verify_bytes ?a ?b 32] => destruct (verify_prefix a b 32) as (v & -> & _) end.
    { apply hmac_ok. } { apply bytes_ok_sub, HO. } { rewrite hmac_length; lia. } { rewrite sub_length; lia. }
    rewrite bind_Ok. destruct (negb _); eauto 8.
  Qed.
End Dec.

(** ** Key objects *)
Definition fresh (i : nat) (l : list (nat * option secret)) : Prop := Forall (fun o => fst o <> i) l.
Lemma heap_fresh h i : heap_ok h -> (kh_next h <= i)%nat -> fresh i (kh_live h).
Proof. unfold heap_ok, fresh. intros H Hi. eapply Forall_impl; [|exact H]. intros o Ho. cbn in Ho. lia. Qed.
Lemma map_fresh i c l : fresh i l -> map (fun o => if Nat.eqb i (fst o) then (i, c) else o) l = l.
Proof.
  induction 1 as [|o l H1 _ IH]; [reflexivity|]. cbn [map]. rewrite IH.
  destruct (Nat.eqb_spec i (fst o)); [congruence|reflexivity].
Qed.
Lemma filter_fresh i l : fresh i l -> filter (fun o : nat * option secret => negb (Nat.eqb i (fst o))) l = l.
Proof.
  induction 1 as [|o l H1 _ IH]; [reflexivity|]. cbn [filter]. rewrite IH.
  destruct (Nat.eqb_spec i (fst o)); [congruence|reflexivity].
Qed.
Lemma kh_set_head i c c' n l r : fresh i l -> kh_set i c' (mk_kh n ((i, c) :: l) r) = Ok (mk_kh n ((i, c') :: l) r).
Proof.
  intros H. unfold kh_set. cbn [kh_live kh_find kh_next kh_released]. rewrite Nat.eqb_refl.
  cbn [map fst]. rewrite Nat.eqb_refl, map_fresh by exact H. reflexivity.
Qed.
Lemma zero_free_head i c n l r : fresh i l -> zero_free i (mk_kh n ((i, c) :: l) r) = Ok (mk_kh n l (None :: r)).
Proof.
  intros H. unfold zero_free. rewrite kh_set_head, bind_Ok by exact H.
  unfold kh_free. cbn [kh_live kh_find kh_next kh_released]. rewrite Nat.eqb_refl.
  cbn [filter fst]. rewrite Nat.eqb_refl. cbn [negb]. rewrite filter_fresh by exact H. reflexivity.
Qed.

Section Aes.
  Context (M : machine).
  Lemma start_aes_cases e h dk : length dk = 64%nat -> bytes_ok dk -> heap_ok h ->
    (v_key_mem e = false /\ start_aes M e h dk = Ok (h, inl SCRYPT_EOPENSSL)) \/
    (v_key_mem e = true /\ v_ctr_mem e = false /\
     start_aes M e h dk = Ok (mk_kh (S (kh_next h)) (kh_live h) (None :: kh_released h), inl SCRYPT_ENOMEM)) \/
    (v_key_mem e = true /\ v_ctr_mem e = true /\ exists key AES,
     start_aes M e h dk =
       Ok (mk_kh (S (S (kh_next h))) ((S (kh_next h), Some (S_stream AES)) :: (kh_next h, Some (S_key key)) :: kh_live h) (kh_released h),
           inr (kh_next h, S (kh_next h), AES)) /\
     key_rep (m_aes M) (firstn 32 dk) key /\ stream_at (m_aes M) (firstn 32 dk) 0 0 AES).
  Proof.
    intros HL HO HH. unfold start_aes. rewrite rd_ok by lia. rewrite bind_Ok.
    change (sub dk 0 32) with (firstn 32 dk).
    assert (length (firstn 32 dk) = 32%nat) as L32 by (rewrite firstn_length; lia).
    assert (bytes_ok (firstn 32 dk)) as O32 by (apply bytes_ok_firstn, HO).
    assert (length (firstn 32 dk) = 16 \/ length (firstn 32 dk) = 32)%nat as LL by (right; exact L32).
    destruct (v_key_mem e).
    2:{ left. split; [reflexivity|]. rewrite <- L32 at 2. rewrite expand_nomem by exact LL. reflexivity. }
    right. assert (length (key_old M) = 15%nat) as LO by reflexivity.
    destruct (expand_rep (m_aes M) (firstn 32 dk) (key_old M) LL O32 LO) as (k & EK & HK).
    rewrite L32 in EK. rewrite EK, bind_Ok. cbn [kh_alloc]. unfold crypto_aesctr_init.
    pose proof (heap_fresh h (kh_next h) HH ltac:(lia)) as F0.
    destruct (v_ctr_mem e).
    2:{ left. split; [reflexivity|]. split; [reflexivity|]. cbn [negb]. rewrite bind_Ok. unfold crypto_aes_key_free. rewrite zero_free_head by exact F0. reflexivity. }
    right. split; [reflexivity|]. split; [reflexivity|]. cbn [negb].
    match goal with |- context [crypto_aesctr_init2 (?a, ?b, ?c) _ _] =>
      destruct (init2_ok (m_aes M) (firstn 32 dk) k 0 a b c HK) as (st & -> & HS) end.
    { unfold ctr_old. apply scratch_bytes_length. } { unfold ctr_old. apply scratch_bytes_length. }
    rewrite !bind_Ok. exists k, st. split; [reflexivity|]. split; assumption.
  Qed.
End Aes.
