(** C72: encrypting a buffer onto itself loses it. *)
From Verif Require Import Base SpecBytes SpecSHA SpecScrypt SpecScryptAPI SpecAES SpecDRBG SpecFormat
  M_sha256 P_sha256 M_aes_hw M_aesctr P_aesctr P_scrypt_ref M_scrypt_sel M_entropy P_entropy M_machine M_double M_memlimit M_cpuperf
  M_humansize M_params Prop_params M_stdio P_stdio M_scryptenc SpecScryptenc P_scryptenc Prop_enc
  M_aesctr_mem P_aesctr_mem P_aesctr_ovl M_scryptenc_ovl P_scryptenc_ovl Prop_scryptenc_ovl P_scryptenc_ovl2.
Local Opaque ENCBLOCK.

Lemma placed_alike m inp other outp : (outp <= inp)%nat -> (inp + length other <= length m)%nat ->
  alike_but m (placed m inp other) outp (inp + length other).
Proof.
  intros H1 H2. change (placed m inp other) with (upd m inp other). split; [rewrite upd_length; lia|]. intros j Hj.
  rewrite nth_error_upd by lia. destruct (Nat.ltb_spec j inp); [reflexivity|]. destruct (Nat.ltb_spec j (inp + length other)); [lia|reflexivity].
Qed.

(** When the data to be encrypted starts at the output, or up to 80 bytes behind
    it, a call that succeeds with separate buffers succeeds too, and what it
    leaves at the output is a valid encrypted file for the passphrase - but one
    whose content, [ruin], does not depend on the data: memory that differs from
    [m] in nothing but the data, whichever, gives the same file. *)
Theorem C72_enc_onto_itself M cfg lb hp e m inp n outp passwd P verbose force o :
  enc_ready M lb hp e passwd P -> bytes_ok m -> N.of_nat n < 2 ^ 64 -> inside m outp (n + 128) -> (outp <= inp <= outp + 80)%nat ->
  scryptenc_buf M cfg lb hp e (block m inp n) (block m outp (n + 128)) passwd P verbose force = Ok o -> oc_rc o = SCRYPT_OK ->
  exists o' h ruin, ovl_scryptenc_buf M cfg lb hp e m inp n outp passwd P verbose force = Ok o' /\
    oc_rc o' = SCRYPT_OK /\ same_side_effects o o' /\
    fhead_ok h /\ computable M h /\ bytes_ok ruin /\ length ruin = n /\
    block (oc_val o') outp (n + 128) = fmt_file scrypt_wrapping passwd h ruin /\
    forall other, bytes_ok other -> length other = n ->
      ovl_scryptenc_buf M cfg lb hp e (placed m inp other) inp n outp passwd P verbose force = Ok o'.
Proof.
  unfold inside. intros HR HM Hn HO HP E ER. destruct HR as [[Hs HPW HH] HXP HE HD].
  assert (length (block m inp n) = n) as LN by (apply sub_length; lia).
  assert (length (block m outp (n + 128)) = (n + 128)%nat) as LB by (apply sub_length; lia).
  pose proof (fun m2 HA HO2 => ovl_enc_self M cfg lb hp e (block m inp n) (block m outp (n + 128)) m m2 inp n outp passwd P verbose force o
      Hs HXP HPW HE HD HH HM Hn HO HP HA HO2 LN (bytes_ok_sub _ _ _ HM) LB E ER) as K.
  destruct (K m) as (o' & E1 & _ & R & S1 & S2 & S3 & S4 & S5 & h & ruin & H1 & H2 & H3 & H4 & H5).
  { split; [reflexivity|]. intros. reflexivity. } { exact HM. }
  exists o', h, ruin. split; [exact E1|]. split; [exact R|]. split; [unfold same_side_effects; auto|].
  do 5 (split; [assumption|]). intros other HB HL. rewrite <- HL in HO.
  destruct (K (placed m inp other)) as (o2 & E2 & E3 & _).
  { rewrite <- HL. apply placed_alike; lia. }
  { change (placed m inp other) with (upd m inp other). apply upd_bytes; assumption. }
  congruence.
Qed.
(** Hence of two different contents at least one cannot be got back: decrypting
    the file, with nothing failing, succeeds and returns [ruin] for both. *)
Theorem C72_decrypts_to_ruin M cfg lb hp e passwd h ruin outbuf outlen P verbose :
  dec_ready M hp passwd -> all_zero P = true -> no_failure e -> fhead_ok h -> computable M h -> bytes_ok ruin ->
  N.of_nat (length ruin + 128) < 2 ^ 64 -> length outbuf = length ruin ->
  exists o, scryptdec_buf M cfg lb hp e (fmt_file scrypt_wrapping passwd h ruin) outbuf outlen passwd P verbose true = Ok o /\
    oc_rc o = SCRYPT_OK /\ oc_val o = (ruin, N.of_nat (length ruin)).
Proof.
  intros HR HP HN Hh Hc HB HL LO.
  assert (length (fmt_file scrypt_wrapping passwd h ruin) = (length ruin + 128)%nat) as LF by (apply P_scryptenc4.fmt_file_length; apply Hh).
  destruct (C05_accepts_iff M cfg lb hp e (fmt_file scrypt_wrapping passwd h ruin) outbuf outlen passwd P verbose HR) as (o & E & HI & HV); auto.
  { split; [apply fmt_file_ok; assumption|rewrite LF; exact HL]. }
  { lia. }
  exists o. split; [exact E|]. split; [apply HI; eauto|]. destruct (HV _ _ eq_refl Hh Hc) as [-> _].
  rewrite skipn_all2, app_nil_r by lia. reflexivity.
Qed.

Example C72_hyps :
  enc_ready ex_machine ex_lib ex_heap ex_call ex_passwd ex_P /\ bytes_ok (ex_data ++ repeat 0 128) /\ inside (ex_data ++ repeat 0 128) 0 (5 + 128) /\
  exists o, scryptenc_buf ex_machine ex_cfg ex_lib ex_heap ex_call (block (ex_data ++ repeat 0 128) 0 5) (block (ex_data ++ repeat 0 128) 0 (5 + 128))
    ex_passwd ex_P true true = Ok o /\ oc_rc o = SCRYPT_OK.
Proof.
  split; [apply ex_enc_ready; split; reflexivity|]. split; [repeat constructor|]. split; [unfold inside; cbn; lia|].
  destruct ex_salt as (salt & d & E & L & B).
  refine (C02_succeeds ex_machine ex_cfg ex_lib ex_heap ex_call (block (ex_data ++ repeat 0 128) 0 5) (block (ex_data ++ repeat 0 128) 0 (5 + 128)) ex_passwd ex_P true true _ _ _ salt d eq_refl ex_no_failure eq_refl E _).
  - apply ex_enc_ready. split; reflexivity.
  - split; [repeat constructor|reflexivity].
  - cbn. lia.
  - unfold computable. cbn [fh_logN fh_r fh_p ex_P x_logN x_r x_p ex_machine m_szb].
    change (Z.to_N 14) with 14. constructor; try (vm_compute; congruence); exists 14; split; [lia|reflexivity].
Qed.
Definition Prop_scryptenc_self_all := (C72_enc_onto_itself, C72_decrypts_to_ruin).
Print Assumptions Prop_scryptenc_self_all.
