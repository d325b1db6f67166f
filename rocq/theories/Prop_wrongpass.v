(** C74: a wrong passphrase; C07 for the program. *)
From Coq Require Import String.
From Verif Require Import Base SpecAscii SpecBytes SpecSHA SpecScrypt SpecScryptAPI SpecAES SpecFormat SpecStream P_sha256 P_scrypt M_machine M_double M_smix M_stdio P_stdio M_memlimit M_cpuperf
  M_strto M_params Prop_params M_scryptenc SpecScryptenc M_getopt M_readpass M_print_error M_main M_memzero P_memzero SpecPass SpecGetopt SpecCLI P_scrypt_ref P_scryptenc P_scryptenc2 P_scryptenc3 P_scryptenc4
  P_scryptenc7 P_scryptenc8 P_scryptenc9 P_entropy M_entropy P_readpass Prop_getopt Prop_readpass Prop_enc Prop_dec Prop_io Prop_cli P_main Prop_main.
Local Open Scope list_scope.
Local Opaque ENCBLOCK.

(* ------------------------------------------------------------------ *)
(** * Specification *)

(** The authentication keys that two passphrases derive from a header give [x] the same tag. *)
Definition same_tag (h : fhead) (p q x : bytes) : Prop :=
  hmac (key_hmac scrypt_wrapping p h) x = hmac (key_hmac scrypt_wrapping q h) x.

Lemma pass_iff p q h data : fhead_ok h -> (passphrase_ok q (fmt_file kdf p h data) <-> same_tag h p q (fmt_64 h)).
Proof.
  intros Hh. destruct (fmt_file_checks p h data Hh) as (HG & _ & _ & _ & HP & _). unfold passphrase_ok in *. rewrite HG in *. rewrite HP.
  assert (firstn 64 (fmt_file kdf p h data) = fmt_64 h) as ->.
  { pose proof (fmt_64_length h ltac:(apply Hh)) as L64. unfold fmt_file, fmt_body, fmt_96. rewrite <- !app_assoc. apply firstn_app_len. symmetry. exact L64. }
  reflexivity.
Qed.
Lemma trailer_iff p q h data : fhead_ok h -> (trailer_ok q (fmt_file kdf p h data) <-> same_tag h p q (fmt_body kdf p h data)).
Proof.
  intros Hh. destruct (fmt_file_checks p h data Hh) as (HG & _ & _ & _ & _ & HT & _). unfold trailer_ok in *. rewrite HG in *. rewrite HT.
  pose proof (fmt_file_length p h data ltac:(apply Hh)) as LF. pose proof (fmt_body_length p h data ltac:(apply Hh)) as LB.
  assert (firstn (length (fmt_file kdf p h data) - 32) (fmt_file kdf p h data) = fmt_body kdf p h data) as ->.
  { rewrite LF. replace (length data + 128 - 32)%nat with (length (fmt_body kdf p h data)) by lia. unfold fmt_file. apply firstn_app_len. reflexivity. }
  reflexivity.
Qed.
(** How decrypting another passphrase's file can end. *)
Lemma other_class M p q h data rc : fhead_ok h -> dec_class M q (fmt_file kdf p h data) rc ->
  (rc = SCRYPT_EKEY /\ ~ computable M h) \/ (computable M h /\
    ((rc = SCRYPT_EPASS /\ ~ same_tag h p q (fmt_64 h)) \/
     (rc = SCRYPT_EINVAL /\ same_tag h p q (fmt_64 h) /\ ~ same_tag h p q (fmt_body kdf p h data)) \/
     (rc = SCRYPT_OK /\ same_tag h p q (fmt_64 h) /\ same_tag h p q (fmt_body kdf p h data)))).
Proof.
  intros Hh H. pose proof (pass_iff p q h data Hh) as P1. pose proof (trailer_iff p q h data Hh) as P2.
  destruct (fmt_file_checks p h data Hh) as (HG & HM & HV & HC & _). pose proof (fmt_file_length p h data ltac:(apply Hh)) as LF.
  set (f := fmt_file kdf p h data) in *. clearbody f.
  inversion H as [A|A B C|A B C|A B C D|A B C D F|A B C D F G|A B C D F G I|A B C D F G I J|A B C D F G I J]; subst rc; rewrite ?HG in *.
  - destruct A; [lia|contradiction].
  - congruence.
  - lia.
  - contradiction.
  - contradiction.
  - left. auto.
  - right. split; [exact G|]. left. tauto.
  - right. split; [exact G|]. right. left. tauto.
  - right. split; [exact G|]. right. right. tauto.
Qed.

(* ------------------------------------------------------------------ *)
(** ** C74 *)

(** Any environment: what [p] encrypted, [q] does not decrypt, unless the two
    keys give the header the same tag; the output stays as it was, and the file
    is not called invalid. *)
Theorem C74_buffer M cfg lb hp e p q h data outbuf outlen P verbose force o :
  dec_ready M hp q -> fhead_ok h -> bytes_ok data -> N.of_nat (length data + 128) < 2 ^ 64 -> (length data <= length outbuf)%nat ->
  ~ same_tag h p q (fmt_64 h) ->
  scryptdec_buf M cfg lb hp e (fmt_file scrypt_wrapping p h data) outbuf outlen q P verbose force = Ok o ->
  oc_val o = (outbuf, outlen) /\ (oc_rc o = SCRYPT_EPASS \/ In (oc_rc o) env_codes) /\
  oc_rc o <> SCRYPT_OK /\ oc_rc o <> SCRYPT_EINVAL.
Proof.
  intros HR Hh HB HN HO HT E. pose proof (fmt_file_length p h data ltac:(apply Hh)) as LF.
  assert (data_ok (fmt_file kdf p h data)) as HD by (split; [apply fmt_file_ok; assumption|rewrite LF; exact HN]).
  assert (oc_rc o = SCRYPT_EPASS \/ In (oc_rc o) env_codes) as HC.
  { destruct (C06_any_environment_buffer M cfg lb hp e _ outbuf outlen q P verbose force o HR HD ltac:(lia) E) as [HC|HC]; [right; exact HC|].
    apply (other_class M p q h data _ Hh) in HC. destruct HC as [[-> _]|[_ [[-> _]|[(_ & HC & _)|(_ & HC & _)]]]]; [right; cbn; tauto|left; reflexivity|contradiction|contradiction]. }
  assert (oc_rc o <> SCRYPT_OK) as N1 by (intros EO; rewrite EO in HC; cbn in HC; intuition discriminate).
  split; [|split; [exact HC|split; [exact N1|intros EO; rewrite EO in HC; cbn in HC; intuition discriminate]]].
  destruct (C08_buffer M cfg lb hp e _ outbuf outlen q P verbose force o HR HD ltac:(lia) E N1) as [HV|(_ & _ & HP & _)]; [exact HV|].
  apply (pass_iff p q h data Hh) in HP. contradiction.
Qed.
(** With resource checks off and nothing failing the status is exactly SCRYPT_EPASS. *)
Theorem C74_buffer_exact M cfg lb hp e p q h data outbuf outlen P verbose :
  dec_ready M hp q -> fhead_ok h -> computable M h -> bytes_ok data -> N.of_nat (length data + 128) < 2 ^ 64 -> (length data <= length outbuf)%nat ->
  all_zero P = true -> no_failure e -> ~ same_tag h p q (fmt_64 h) ->
  exists o, scryptdec_buf M cfg lb hp e (fmt_file scrypt_wrapping p h data) outbuf outlen q P verbose true = Ok o /\
    oc_rc o = SCRYPT_EPASS /\ oc_val o = (outbuf, outlen).
Proof.
  intros HR Hh Hc HB HN HO HP HNF HT. pose proof (fmt_file_length p h data ltac:(apply Hh)) as LF.
  assert (data_ok (fmt_file kdf p h data)) as HD by (split; [apply fmt_file_ok; assumption|rewrite LF; exact HN]).
  destruct (C06_status_buffer M cfg lb hp e _ outbuf outlen q P verbose HR HD ltac:(lia) HP HNF) as (o & E & HC).
  destruct (C74_buffer M cfg lb hp e p q h data outbuf outlen P verbose true o HR Hh HB HN HO HT E) as (HV & _).
  exists o. split; [exact E|]. split; [|exact HV].
  pose proof (proj1 (HC _) eq_refl) as HK. apply (other_class M p q h data _ Hh) in HK.
  destruct HK as [[_ HK]|[_ [[HK _]|[(_ & HK & _)|(_ & HK & _)]]]]; [contradiction|exact HK|contradiction|contradiction].
Qed.
(** What acceptance would take: equal tags of two keys, on the header and on the whole file. *)
Theorem C74_accepted M cfg lb hp e p q h data outbuf outlen P verbose force o :
  dec_ready M hp q -> fhead_ok h -> bytes_ok data -> N.of_nat (length data + 128) < 2 ^ 64 -> (length data <= length outbuf)%nat ->
  scryptdec_buf M cfg lb hp e (fmt_file scrypt_wrapping p h data) outbuf outlen q P verbose force = Ok o -> oc_rc o = SCRYPT_OK ->
  same_tag h p q (fmt_64 h) /\ same_tag h p q (fmt_body scrypt_wrapping p h data).
Proof.
  intros HR Hh HB HN HO E ER. pose proof (fmt_file_length p h data ltac:(apply Hh)) as LF.
  assert (data_ok (fmt_file kdf p h data)) as HD by (split; [apply fmt_file_ok; assumption|rewrite LF; exact HN]).
  destruct (C06_any_environment_buffer M cfg lb hp e _ outbuf outlen q P verbose force o HR HD ltac:(lia) E) as [HC|HC]; rewrite ER in HC.
  { cbn in HC. intuition discriminate. }
  apply (other_class M p q h data _ Hh) in HC. destruct HC as [[HC _]|[_ [[HC _]|[(HC & _)|(_ & H1 & H2)]]]]; try discriminate HC. split; assumption.
Qed.
(** The stream form, under any schedule of reads, read and write errors included. *)
Theorem C74_stream M cfg lb hp e p q h data fi fo P verbose force o :
  dec_ready M hp q -> instream_ok fi -> fhead_ok h -> stream_data (no_errors fi) = fmt_file scrypt_wrapping p h data ->
  ~ same_tag h p q (fmt_64 h) ->
  scryptdec_file M cfg lb hp e fi fo q P verbose force = Ok o ->
  o_data (snd (oc_val o)) = o_data fo /\ oc_rc o <> SCRYPT_OK.
Proof.
  intros HR HI Hh ED HT E. split.
  - destruct (C08_stream M cfg lb hp e fi fo q P verbose force o HR HI E) as (w & -> & [->|(HP & _)] & _); [apply app_nil_r|].
    rewrite ED in HP. apply (pass_iff p q h data Hh) in HP. contradiction.
  - intros ER. destruct (C06_any_environment_stream M cfg lb hp e fi fo q P verbose force o HR HI E) as [HC|HC]; rewrite ER in HC.
    { cbn in HC. intuition discriminate. }
    inversion HC as [rc0 A0 A9| | | | | | |]; subst rc0. inversion A9 as [| | | | | | | |A1 A2 A3 A4 A5 A6 A7 A8].
    apply (prefix_passphrase q (stream_data fi) (stream_data (no_errors fi))) in A7; [|lia|apply stream_data_prefix].
    rewrite ED in A7. apply (pass_iff p q h data Hh) in A7. contradiction.
Qed.
Theorem C74_stream_exact M cfg lb hp e p q h data fi fo P verbose :
  dec_ready M hp q -> fhead_ok h -> computable M h -> bytes_ok data -> N.of_nat (length data + 128) < 2 ^ 64 ->
  delivered (fmt_file scrypt_wrapping p h data) fi -> out_good fo -> o_err fo = false -> all_zero P = true -> no_failure e ->
  ~ same_tag h p q (fmt_64 h) ->
  exists o, scryptdec_file M cfg lb hp e fi fo q P verbose true = Ok o /\ oc_rc o = SCRYPT_EPASS.
Proof.
  intros HR Hh Hc HB HN HDL HOG HOE HP HNF HT. pose proof (fmt_file_length p h data ltac:(apply Hh)) as LF.
  assert (data_ok (fmt_file kdf p h data)) as HD by (split; [apply fmt_file_ok; assumption|rewrite LF; exact HN]).
  destruct (C06_status_stream M cfg lb hp e _ fi fo q P verbose HR HD HDL HOG HOE HP HNF) as (o & E & HC).
  exists o. split; [exact E|]. apply HC. apply DCS_same; [lia|].
  destruct (fmt_file_checks p h data Hh) as (HG & HM & HV & HCS & _).
  apply DC_pass; rewrite ?HG; auto; [lia|]. intros HX. apply (pass_iff p q h data Hh) in HX. contradiction.
Qed.
(** The program: exit status 1, and the output is not touched. *)
Theorem C74_program W prog rest r s i o q fi p h data : sane W -> Forall cstring rest ->
  requested W Dec rest s i o -> reads W s true i q fi -> fhead_ok h -> stream_data (no_errors fi) = fmt_file scrypt_wrapping p h data ->
  ~ same_tag h p q (fmt_64 h) ->
  main W (prog :: str "dec" :: rest) = Ok r -> untouched W r /\ pr_status r = 1%Z.
Proof.
  intros HW HC HQ HRD Hh ED HT E. refine (C10_bad_header_untouched W prog rest r s i o q fi HW HC HQ HRD _ E).
  intros (HL & _ & _ & _ & _ & _ & HP).
  apply (prefix_passphrase q (stream_data fi) (stream_data (no_errors fi))) in HP; [|lia|apply stream_data_prefix].
  rewrite ED in HP. apply (pass_iff p q h data Hh) in HP. contradiction.
Qed.

(* ------------------------------------------------------------------ *)
(** ** C07 for the program: exit status 0 on an altered file shows a forgery. *)
Theorem C07_program W prog rest r : sane W -> Forall cstring rest -> main W (prog :: str "dec" :: rest) = Ok r -> pr_status r = 0%Z ->
  exists s i o passwd fi, requested W Dec rest s i o /\ reads W s true i passwd fi /\
    let f' := stream_data fi in let m' := firstn (length f' - 32) f' in let t' := skipn (length f' - 32) f' in
    forall h data, fhead_ok h -> f' <> fmt_file scrypt_wrapping passwd h data ->
      t' = hmac (key_hmac scrypt_wrapping passwd (get_head f')) m' /\
      m' <> fmt_64 h /\ m' <> fmt_body scrypt_wrapping passwd h data /\
      (firstn 48 f' = fmt_48 h -> t' = hmac (key_hmac scrypt_wrapping passwd h) m').
Proof.
  intros HW HC E ER. destruct (C11_status W prog Dec rest r HW HC E) as [_ K]. specialize (K ER).
  inversion K as [|s i o passwd fi fo fo' h0 data0 K1 K2 K3 K4 K5 K6 K7 K8|]. exists s, i, o, passwd, fi. split; [exact K1|]. split; [exact K2|]. cbv zeta.
  intros h data Hh HNE.
  destruct (fmt_file_checks passwd h0 data0 K5) as (HG & HM & HV & HCS & HP & HT & _). pose proof (fmt_file_length passwd h0 data0 ltac:(apply K5)) as LF. rewrite <- K6 in *.
  apply accepted_is_forgery_file; auto; rewrite ?HG; auto; lia.
Qed.

(** Passphrases "a" and "b" and the cheapest header. *)
Definition ex_cheap : fhead := mk_fh 1 1 1 (repeat 7 32).
Example C74_hyps : fhead_ok ex_cheap /\ ~ same_tag ex_cheap [97] [98] (fmt_64 ex_cheap) /\ dec_ready ex_machine ex_heap [98] /\
  bytes_ok ex_data /\ N.of_nat (length ex_data + 128) < 2 ^ 64.
Proof.
  split. { unfold fhead_ok, ex_cheap. cbn [fh_logN fh_r fh_p fh_salt]. repeat split; try lia; try reflexivity; repeat constructor. }
  split. { intros H. assert (list_eqb (hmac (key_hmac scrypt_wrapping [97] ex_cheap) (fmt_64 ex_cheap)) (hmac (key_hmac scrypt_wrapping [98] ex_cheap) (fmt_64 ex_cheap)) = true) as HE
             by (apply list_eqb_spec; exact H). vm_compute in HE. discriminate HE. }
  split. { destruct ex_dec_ready as [A B C]. split; [exact A|repeat constructor|exact C]. }
  split; [repeat constructor|reflexivity].
Qed.
Definition Prop_wrongpass_all := (C74_buffer, C74_buffer_exact, C74_accepted, C74_stream, C74_stream_exact, C74_program, C07_program).
Print Assumptions Prop_wrongpass_all.
