(** Property C44: what "info" prints. *)
From Coq Require Import String.
From Verif Require Import Base SpecAscii SpecText SpecBytes SpecSHA SpecScrypt SpecAES SpecFormat SpecStream
  M_endian P_endian P_scrypt_ref M_verify P_verify M_machine M_double M_memlimit M_cpuperf M_humansize P_humansize M_params M_stdio P_stdio M_scryptenc SpecScryptenc
  P_scryptenc P_scryptenc2 P_scryptenc3 P_scryptenc4 P_scryptenc8 P_scryptenc9 Prop_params Prop_enc Prop_dec M_msg_text.
Local Open Scope list_scope.

Definition scrypt_header (f : bytes) : Prop := (96 <= length f)%nat /\ firstn 6 f = fmt_magic /\ nth 6 f 0 = 0.
Lemma info_eq al1 al2 fi : input_ok fi -> scrypt_header (stream_data fi) -> exists fi',
  let h := get_head (stream_data fi) in
  scryptdec_file_printparams al1 al2 fi =
    (m <- display_params al1 al2 (Z.of_N (fh_logN h)) (fh_r h) (fh_p h) 0 d0 d0 ;; Ok (SCRYPT_OK, [Msg_params m], fi')).
Proof.
  intros HI (HL & HM & HV). destruct (load_header_ok fi HI) as (rc & hd & fi' & EL & HR).
  exists fi'. cbv zeta. unfold scryptdec_file_printparams. rewrite EL.
  pose proof (stream_data_ok fi HI) as HFO. set (f := stream_data fi) in *.
  assert (rc = SCRYPT_OK /\ hd = firstn 96 f) as [-> ->].
  { destruct HR as [fi' |fi' A|fi' A B|fi' A B C|fi' A B C]; [auto| | | |]; exfalso; subst f; try lia; contradiction. }
  change (is_ok SCRYPT_OK) with true. cbn [negb].
  assert (length (firstn 96 f) = 96%nat) as L by (rewrite firstn_length; lia).
  rewrite rd1 by lia. rewrite bind_Ok. rewrite !rd_ok by lia. rewrite !bind_Ok.
  rewrite !sub_firstn by lia.
  rewrite (proj1 (be32dec_be_val f 8 HFO ltac:(lia))), (proj1 (be32dec_be_val f 12 HFO ltac:(lia))).
  unfold sel at 1. cbn [nth]. unfold sel. rewrite nth_firstn by lia. reflexivity.
Qed.

(** The decimal notations of N, r, p and of the memory requirement, rounded
    down to the form that humansize.h documents. *)
Definition info_text (N_ r p : N) (t : bytes) : Prop := exists sN sr sp sm v,
  decimal N_ sN /\ decimal r sr /\ decimal p sp /\
  human v sm /\ v <= 128 * N_ * r /\ (forall v' s', human v' s' -> v' <= 128 * N_ * r -> v' <= v) /\
  t = str "Parameters used: N = " ++ sN ++ str "; r = " ++ sr ++ str "; p = " ++ sp ++ str ";" ++ [newline]
   ++ str "    Decrypting this file requires at least " ++ sm ++ str " of memory." ++ [newline].

Theorem C44_info fmt_f1 fi : input_ok fi -> scrypt_header (stream_data fi) ->
  let h := get_head (stream_data fi) in
  fh_logN h < 64 -> fh_r h < 2 ^ 25 -> 128 * 2 ^ fh_logN h * fh_r h < 2 ^ 64 ->
  exists m fi', scryptdec_file_printparams true true fi = Ok (SCRYPT_OK, [m], fi') /\
    info_text (2 ^ fh_logN h) (fh_r h) (fh_p h) (msg_text fmt_f1 m).
Proof.
  intros HI HS h H1 H2 H3. destruct (info_eq true true fi HI HS) as (fi' & E). fold h in E. cbv zeta in E. rewrite E. clear E.
  unfold display_params.
  assert ((0 <=? Z.of_N (fh_logN h))%Z && (Z.of_N (fh_logN h) <? 64)%Z = true) as -> by lia. cbn [negb].
  rewrite N2Z.id. cbv zeta. rewrite one_shl by lia.
  assert (w32 (128 * fh_r h) = 128 * fh_r h) as -> by (apply w32_small; lia).
  assert (128 * fh_r h * 2 ^ fh_logN h < 2 ^ 64) as H3' by (clear - H3; lia).
  assert (w64 (128 * fh_r h * 2 ^ fh_logN h) = 128 * fh_r h * 2 ^ fh_logN h) as -> by (apply w64_small; exact H3').
  change (humansize true 0) with (Ok (Some [48; 32; 66])). rewrite bind_Ok.
  destruct (humansize_spec _ H3') as (sm & v & -> & V1 & V2 & V3). rewrite bind_Ok.
  change (0 <? 0) with false. cbv iota. rewrite bind_Ok. change (dlt d0 d0) with false. cbv iota. rewrite bind_Ok.
  do 2 eexists. split; [reflexivity|]. unfold msg_text, params_text, info_text. cbn [pm_N pm_r pm_p pm_mem pm_avail pm_time].
  exists (print_dec (2 ^ fh_logN h)), (print_dec (fh_r h)), (print_dec (fh_p h)), sm, v.
  do 3 (split; [apply print_dec_decimal|]). split; [exact V1|].
  replace (128 * 2 ^ fh_logN h * fh_r h) with (128 * fh_r h * 2 ^ fh_logN h) by (clear; lia).
  split; [exact V2|]. split; [exact V3|].
  change (str "    Decrypting this file requires at least ") with (str "    Decrypting this file requires at least" ++ str " ").
  change (str " of memory.") with (str " of memory" ++ str ".").
  rewrite <- !app_assoc. reflexivity.
Qed.
(** When there is nothing to print: exactly the statuses of a header that
    cannot be read. *)
Theorem C44_errors al1 al2 fi : input_ok fi -> ~ scrypt_header (stream_data fi) ->
  exists rc fi', scryptdec_file_printparams al1 al2 fi = Ok (rc, [], fi') /\
    let f := stream_data fi in
    ((rc = SCRYPT_EVERSION /\ (7 <= length f)%nat /\ firstn 6 f = fmt_magic /\ nth 6 f 0 <> 0) \/
     (rc = SCRYPT_EINVAL /\ (7 <= length f)%nat /\ firstn 6 f <> fmt_magic) \/
     (((length f < 7)%nat \/ (length f < 96)%nat /\ firstn 6 f = fmt_magic /\ nth 6 f 0 = 0) /\
      rc = if stream_fails fi then SCRYPT_ERDFILE else SCRYPT_EINVAL)).
Proof.
  intros HI HS. destruct (load_header_ok fi HI) as (rc & hd & fi' & EL & HR).
  unfold scryptdec_file_printparams. rewrite EL. unfold scrypt_header in HS. cbv zeta.
  destruct HR as [fi' |fi' A|fi' A B|fi' A B C|fi' A B C]; [exfalso; tauto| | | |];
    try (destruct (stream_fails fi)); cbn [is_ok rcode_eqb negb]; do 2 eexists; (split; [reflexivity|]); intuition.
Qed.
(** The checksum is not looked at: the output depends on the first 16 bytes
    only. *)
Theorem C44_only_first_bytes al1 al2 fi1 fi2 : input_ok fi1 -> input_ok fi2 ->
  scrypt_header (stream_data fi1) -> scrypt_header (stream_data fi2) ->
  firstn 16 (stream_data fi1) = firstn 16 (stream_data fi2) ->
  forall rc1 ms1 fi1', scryptdec_file_printparams al1 al2 fi1 = Ok (rc1, ms1, fi1') ->
  exists fi2', scryptdec_file_printparams al1 al2 fi2 = Ok (rc1, ms1, fi2').
Proof.
  intros HI1 HI2 HS1 HS2 HE rc1 ms1 fi1' E.
  destruct (info_eq al1 al2 fi1 HI1 HS1) as (fa & E1). destruct (info_eq al1 al2 fi2 HI2 HS2) as (fb & E2). cbv zeta in E1, E2.
  rewrite E1 in E. exists fb. rewrite E2.
  assert (forall o n, (o + n <= 16)%nat -> sub (stream_data fi1) o n = sub (stream_data fi2) o n) as HSUB.
  { intros o n Hn. rewrite <- (sub_firstn (stream_data fi1) o n 16 Hn), <- (sub_firstn (stream_data fi2) o n 16 Hn), HE. reflexivity. }
  assert (fh_logN (get_head (stream_data fi1)) = fh_logN (get_head (stream_data fi2))) as EA.
  { unfold get_head. cbn [fh_logN]. rewrite <- (nth_firstn (stream_data fi1) 7 16), <- (nth_firstn (stream_data fi2) 7 16), HE by lia. reflexivity. }
  assert (fh_r (get_head (stream_data fi1)) = fh_r (get_head (stream_data fi2))) as EB by (unfold get_head; cbn [fh_r]; rewrite HSUB by lia; reflexivity).
  assert (fh_p (get_head (stream_data fi1)) = fh_p (get_head (stream_data fi2))) as EC by (unfold get_head; cbn [fh_p]; rewrite HSUB by lia; reflexivity).
  rewrite EA, EB, EC in E. apply bind_inv in E. destruct E as (m & EM & E). rewrite EM, bind_Ok. congruence.
Qed.

(** ** Refuted: headers for which the output is wrong or undefined. *)
(** A header with these fields and zeros instead of salt, checksum and HMAC. *)
Definition info_file (logN r p : N) : bytes := fmt_magic ++ [0] ++ [logN] ++ be_bytes 4 r ++ be_bytes 4 p ++ repeat 0 80.
(** log2(N) >= 64: undefined shift. *)
Theorem C44_shift_refuted logN r p : 64 <= logN -> logN < 256 -> r < 2 ^ 32 -> p < 2 ^ 32 ->
  scryptdec_file_printparams true true (mk_in [(info_file logN r p, false)] false) = UB.
Proof.
  intros H1 H2 Hr Hp. set (fi := mk_in _ _).
  assert (stream_data fi = info_file logN r p) as ES by reflexivity.
  assert (bytes_ok (info_file logN r p)) as HB.
  { unfold info_file. repeat (apply bytes_ok_app; split); try apply be_bytes_ok; repeat constructor; lia. }
  assert (input_ok fi) as HI by (constructor; [exact HB|constructor]).
  assert (scrypt_header (stream_data fi)) as HS by (rewrite ES; repeat split; cbn; lia).
  destruct (info_eq true true fi HI HS) as (fi' & E). cbv zeta in E. rewrite E, ES.
  unfold get_head. cbn [fh_logN fh_r fh_p]. unfold display_params.
  change (nth 7 (info_file logN r p) 0) with logN.
  assert ((0 <=? Z.of_N logN)%Z && (Z.of_N logN <? 64)%Z = false) as -> by lia. reflexivity.
Qed.
(** r = 2^25: "0 B" instead of 8.5 GB. *)
Theorem C44_wrap_refuted : exists m fi',
  scryptdec_file_printparams true true (mk_in [(info_file 1 (2 ^ 25) 1, false)] false) = Ok (SCRYPT_OK, [Msg_params m], fi') /\
  pm_N m = 2 /\ pm_r m = 2 ^ 25 /\ pm_mem m = str "0 B" /\ 128 * 2 * 2 ^ 25 = 8589934592.
Proof. do 2 eexists. split; [vm_compute; reflexivity|]. repeat split; vm_compute; reflexivity. Qed.

(** A concrete header: N = 2^14, r = 8, p = 1, delivered in two pieces. *)
Example C44_hyps :
  let fi := mk_in [(firstn 10 (info_file 14 8 1), false); (skipn 10 (info_file 14 8 1), false)] false in
  input_ok fi /\ scrypt_header (stream_data fi) /\ get_head (stream_data fi) = mk_fh 14 8 1 (repeat 0 32) /\
  exists m fi', scryptdec_file_printparams true true fi = Ok (SCRYPT_OK, [m], fi') /\
    msg_text (fun _ => []) m = str "Parameters used: N = 16384; r = 8; p = 1;" ++ [newline]
      ++ str "    Decrypting this file requires at least 16 MB of memory." ++ [newline].
Proof.
  cbv zeta. split; [repeat constructor|]. split; [repeat split; vm_compute; repeat constructor|]. split; [vm_compute; reflexivity|].
  do 2 eexists. split; [vm_compute; reflexivity|]. vm_compute. reflexivity.
Qed.
Definition Prop_info_all := (C44_info, C44_errors, C44_only_first_bytes, C44_shift_refuted, C44_wrap_refuted).
Print Assumptions Prop_info_all.
