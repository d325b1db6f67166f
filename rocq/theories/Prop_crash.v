(** C62: truncated files and interrupted encryptions. *)
From Verif Require Import Base SpecBytes SpecSHA SpecScrypt SpecScryptAPI SpecAES SpecDRBG SpecFormat SpecStream
  M_endian P_endian M_sha256_tr M_simd M_sha256_hw M_sha256 P_sha256 M_smix M_aes_hw M_aesctr P_aes P_aesctr P_scrypt P_scrypt_ref
  M_scrypt_sel P_scrypt_sel Prop_scrypt M_verify P_verify M_entropy P_entropy M_machine M_double M_memlimit M_cpuperf
  M_humansize P_humansize M_params Prop_params M_stdio P_stdio M_scryptenc SpecScryptenc P_scryptenc P_scryptenc2 P_scryptenc3 P_scryptenc4
  P_scryptenc5 P_scryptenc6 P_scryptenc7 P_scryptenc8 P_scryptenc9 P_scryptenc10 P_scryptenc11 Prop_enc Prop_dec Prop_io.
Local Opaque ENCBLOCK.

(** A truncated file ends by chance (or malice) with a valid tag: t is a proper
    prefix of the file for h and data, and its last 32 bytes are the HMAC-SHA256 of
    what precedes them, a message the encryption never authenticated. *)
Definition lucky_tag (passwd : bytes) (h : fhead) (data t : bytes) : Prop :=
  (128 <= length t < length data + 128)%nat /\
  skipn (length t - 32) t = hmac (key_hmac scrypt_wrapping passwd h) (firstn (length t - 32) t).

Lemma prefix_trans (a b c : bytes) : prefix a b -> prefix b c -> prefix a c.
Proof. intros [x ->] [y ->]. exists (x ++ y). rewrite app_assoc. reflexivity. Qed.
Lemma prefix_same (a b : bytes) : prefix a b -> length a = length b -> a = b.
Proof. intros [x ->] H. rewrite app_length in H. destruct x; [rewrite app_nil_r; reflexivity|cbn in H; lia]. Qed.
Lemma prefix_head passwd h data t : fhead_ok h -> prefix t (fmt_file scrypt_wrapping passwd h data) -> (48 <= length t)%nat -> get_head t = h.
Proof.
  intros Hh HP HL. rewrite (prefix_get_head t _ HL HP). unfold fmt_file, fmt_body, fmt_96, fmt_64. rewrite <- !app_assoc. apply get_head_fmt. exact Hh.
Qed.
(** The ciphertext found in a truncated file decrypts to the beginning of the data. *)
Lemma prefix_body passwd h data t n : fhead_ok h -> prefix t (fmt_file scrypt_wrapping passwd h data) -> (96 + n + 32 <= length t)%nat ->
  (n <= length data)%nat /\ aes_ctr (key_enc scrypt_wrapping passwd h) 0 0 (sub t 96 n) = firstn n data.
Proof.
  intros Hh [c HP] HL. assert (length (fh_salt h) = 32%nat) as HS by apply Hh. pose proof (f_equal (@length N) HP) as EL. rewrite fmt_file_length, app_length in EL by exact HS.
  assert (n <= length data)%nat as Hn by lia. split; [exact Hn|].
  assert (sub t 96 n = sub (fmt_file scrypt_wrapping passwd h data) 96 n) as -> by (rewrite HP, sub_app_le by lia; reflexivity).
  unfold fmt_file, fmt_body, sub. rewrite <- app_assoc. rewrite skipn_app_len by (symmetry; apply fmt_96_length; exact HS).
  rewrite firstn_app_le by (rewrite aes_ctr_length; exact Hn). rewrite <- (firstn_skipn n data) at 1. rewrite aes_ctr_app.
  rewrite firstn_app_len by (rewrite aes_ctr_length, firstn_length; lia). apply aes_ctr_involutive.
Qed.
Lemma prefix_firstn n (d : bytes) : prefix (firstn n d) d.
Proof. exists (skipn n d). symmetry. apply firstn_skipn. Qed.
(** What acceptance of a truncated file means. *)
Lemma accepted_prefix passwd h data t : fhead_ok h -> prefix t (fmt_file scrypt_wrapping passwd h data) -> (128 <= length t)%nat -> trailer_ok passwd t ->
  t = fmt_file scrypt_wrapping passwd h data \/ lucky_tag passwd h data t.
Proof.
  intros Hh HP HL HT. assert (length (fh_salt h) = 32%nat) as HS by apply Hh. destruct (Nat.eq_dec (length t) (length data + 128)) as [E|E].
  - left. apply prefix_same; [exact HP|]. rewrite fmt_file_length by exact HS. exact E.
  - right. pose proof (prefix_length _ _ HP) as L. rewrite fmt_file_length in L by exact HS. split; [lia|].
    unfold trailer_ok in HT. rewrite (prefix_head _ _ _ _ Hh HP) in HT by lia. exact HT.
Qed.

(** ** Decrypting a truncated file, in any environment *)
Theorem C62_truncated_buffer M cfg lb hp e t outbuf outlen passwd P verbose force o h data :
  dec_ready M hp passwd -> data_ok t -> (length t - 128 <= length outbuf)%nat -> fhead_ok h ->
  prefix t (fmt_file scrypt_wrapping passwd h data) ->
  scryptdec_buf M cfg lb hp e t outbuf outlen passwd P verbose force = Ok o ->
  let n := (length t - 128)%nat in
  (oc_rc o = SCRYPT_OK -> t = fmt_file scrypt_wrapping passwd h data \/ lucky_tag passwd h data t) /\
  (oc_val o = (outbuf, outlen) \/ (128 <= length t)%nat /\ oc_val o = (firstn n data ++ skipn n outbuf, N.of_nat n)) /\
  (oc_rc o = SCRYPT_OK -> oc_val o = (firstn n data ++ skipn n outbuf, N.of_nat n)).
Proof.
  intros [Hs HPW HH] [HD1 HD2] HO Hh HP E n. apply scryptdec_buf_inv in E; auto. destruct E as (_ & _ & _ & _ & HR).
  revert HR. generalize (oc_rc o) (oc_msgs o) (oc_P o) (oc_val o). clear o. intros rc ms P' V HR.
  destruct HR as [A|A B C|A B C|rc lb' ms dk A B C D F|rc lb' ms dk A B C D F G|rc lb' ms dk A B C D F G H];
    try (split; [congruence|split; [left; reflexivity|congruence]]).
  - assert (rc <> SCRYPT_OK) as HN. { rewrite F. unfold aes_rc. destruct (v_key_mem e); discriminate. } split; [congruence|split; [left; reflexivity|congruence]].
  - rewrite (prefix_head _ _ _ _ Hh HP) by lia. fold n. destruct (prefix_body passwd h data t n Hh HP ltac:(lia)) as [Hn EB]. rewrite EB.
    split; [|split; [right; split; [exact A|reflexivity]|reflexivity]]. intros ->. destruct H as [(_ & H)|(H & _)]; [|discriminate H]. apply accepted_prefix; auto.
Qed.
Theorem C62_truncated_stream M cfg lb hp e fi fo passwd P verbose force o h data :
  dec_ready M hp passwd -> instream_ok fi -> fhead_ok h ->
  let t := stream_data (no_errors fi) in
  prefix t (fmt_file scrypt_wrapping passwd h data) ->
  scryptdec_file M cfg lb hp e fi fo passwd P verbose force = Ok o ->
  exists w, o_data (snd (oc_val o)) = o_data fo ++ w /\ prefix w data /\ (w = [] \/ length w + 128 <= length t)%nat /\
    (oc_rc o = SCRYPT_OK -> w = firstn (length t - 128) data /\ (t = fmt_file scrypt_wrapping passwd h data /\ w = data \/ lucky_tag passwd h data t)).
Proof.
  intros HR HI Hh t HP E. destruct (C08_stream M cfg lb hp e fi fo passwd P verbose force o HR HI E) as (w & E1 & E2 & _). fold t in E2.
  exists w. split; [exact E1|]. assert (length (fh_salt h) = 32%nat) as HS by apply Hh.
  assert (prefix w data /\ (w = [] \/ length w + 128 <= length t)%nat) as [H1 H2].
  { destruct E2 as [->|(_ & HL & E2)]; [split; [exists data; reflexivity|left; reflexivity]|]. split; [|right; lia].
    rewrite (prefix_head _ _ _ _ Hh HP) in E2 by lia. destruct (prefix_body passwd h data t (length w) Hh HP HL) as [_ EB]. rewrite EB in E2. rewrite E2. apply prefix_firstn. }
  split; [exact H1|]. split; [exact H2|]. intros HOK.
  destruct HR as [Hs HPW HH]. destruct HI as [HD1 HD2]. apply scryptdec_file_inv in E; auto. destruct E as (_ & _ & _ & HF).
  revert HF HOK E1. generalize (oc_rc o) (oc_msgs o) (oc_P o) (oc_val o) (oc_heap o). clear o. intros rc0 ms0 P0 [fi0 fo0] hp0. cbn [fst snd]. intros HF HOK E1.
  destruct HF as [A1|rc1 hd fi' hp' A1 A2 A3 A4|rc1 fi' ms lb' dk hp' A1 A2 A3 A4 A5|rc1 fi1 ms lb' dk hp' A1 A2 A3 A4 A5|fi1 ms lb' dk ct hold w0 fi' fo' hp' A1 A2 A3 A4 A5 A6 A7 A8 A9 A10|fi1 ms lb' dk ct hold fi' fo' hp' A1 A2 A3 A4 A5 A6 A7 A8 A9 A10 A11|fi1 ms lb' dk fi' fo' hp' A1 A2 A3 A4 A5 A6 A7 A8 A9 A10|rc1 fi1 ms lb' dk fi' fo' hp' A1 A2 A3 A4 A5 A6 A7 A8 A9 A10 A11]; try congruence.
  - exfalso. rewrite A4 in HOK. unfold aes_rc in HOK. destruct (v_key_mem e); discriminate.
  - assert (stream_data fi = t) as ES by (symmetry; apply no_fail_same; exact A8). rewrite ES in *.
    destruct A11 as [(_ & A11)|(A11 & _)]; [|congruence]. rewrite (prefix_head _ _ _ _ Hh HP) in A10 by lia.
    destruct (prefix_body passwd h data t (length t - 128) Hh HP ltac:(lia)) as [Hn EB].
    assert (w = firstn (length t - 128) data) as EW. { rewrite E1 in A10. apply app_inv_head in A10. rewrite EB in A10. exact A10. }
    split; [exact EW|]. destruct (accepted_prefix passwd h data t Hh HP A9 A11) as [EQ|EQ]; [left|right; exact EQ].
    split; [exact EQ|]. rewrite EW. apply firstn_all2. rewrite EQ, fmt_file_length by exact HS. lia.
Qed.

(** ** What an encryption leaves behind *)
(** At the end of an encryption, however it ends, the output has received the
    beginning of a file for the beginning of the input: all of both if the status
    is SCRYPT_OK, and possibly nothing otherwise. *)
Theorem C62_written M cfg lb hp e fi fo passwd P verbose force o :
  enc_ready M lb hp e passwd P -> instream_ok fi ->
  scryptenc_file M cfg lb hp e fi fo passwd P verbose force = Ok o ->
  exists w, o_data (snd (oc_val o)) = o_data fo ++ w /\
    (w = [] /\ oc_rc o <> SCRYPT_OK \/ exists h data, fhead_ok h /\ prefix data (stream_data (no_errors fi)) /\
      prefix w (fmt_file scrypt_wrapping passwd h data) /\
      (oc_rc o = SCRYPT_OK <-> w = fmt_file scrypt_wrapping passwd h data)).
Proof.
  intros [[Hs HPW HH] HX HE HDR] [HI1 HI2] E. apply scryptenc_file_inv in E; auto. destruct E as (_ & _ & _ & _ & _ & HR).
  revert HR. generalize (oc_rc o) (oc_P o) (oc_val o) (oc_heap o). clear o. intros rc P' [fi' fo'] hp'. cbn [fst snd]. intros HR.
  destruct HR as [rc P' HN _|h rc fi' fo' hp' Hh _ _ HT].
  { exists []. rewrite app_nil_r. split; [reflexivity|]. left. auto. }
  assert (length (fh_salt h) = 32%nat) as HS by apply Hh.
  assert (forall d, length (fmt_file scrypt_wrapping passwd h d) = (length d + 128)%nat) as HLF by (intros; apply fmt_file_length; exact HS).
  assert (length (fmt_96 scrypt_wrapping passwd h) = 96%nat) as L96 by (apply fmt_96_length; exact HS).
  assert (forall w d, prefix w (fmt_file scrypt_wrapping passwd h d) -> (length w < length d + 128)%nat -> w <> fmt_file scrypt_wrapping passwd h d) as HSH.
  { intros w d _ HL EQ. apply (f_equal (@length N)) in EQ. rewrite HLF in EQ. lia. }
  assert (forall (rc : rcode) w d, rc <> SCRYPT_OK -> prefix d (stream_data (no_errors fi)) -> prefix w (fmt_file scrypt_wrapping passwd h d) -> (length w < length d + 128)%nat ->
    o_data fo' = o_data fo ++ w -> exists w, o_data fo' = o_data fo ++ w /\ (w = [] /\ rc <> SCRYPT_OK \/ exists h data, fhead_ok h /\ prefix data (stream_data (no_errors fi)) /\
      prefix w (fmt_file scrypt_wrapping passwd h data) /\ (rc = SCRYPT_OK <-> w = fmt_file scrypt_wrapping passwd h data))) as HFAIL.
  { intros rc0 w d HN H1 H2 H3 H4. exists w. split; [exact H4|]. right. exists h, d. split; [exact Hh|]. split; [exact H1|]. split; [exact H2|].
    split; [congruence|]. intros EQ. destruct (HSH w d H2 H3 EQ). }
  destruct HT as [fo' k A1 A2 A3|rc fo' hp' A1 A2 A3 A4 A5|d w fi' fo' hp' A1 A2 A3 A4 A5 A6 A7|d fi' fo' hp' A1 A2 A3 A4 A5 A6 A7 A8|k fi' fo' hp' A1 A2 A3 A4 A5 A6 A7 A8 A9|fi' fo' hp' A1 A2 A3 A4 A5 A6 A7 A8].
  - apply (HFAIL _ (firstn k (fmt_96 scrypt_wrapping passwd h)) []); [discriminate|eexists; reflexivity| |rewrite firstn_length, L96; change (length (@nil N)) with 0%nat; lia|exact A3].
    apply (prefix_trans _ (fmt_96 scrypt_wrapping passwd h)); [apply prefix_firstn|]. unfold fmt_file, fmt_body. eexists. rewrite <- app_assoc. reflexivity.
  - apply (HFAIL _ (fmt_96 scrypt_wrapping passwd h) []); [rewrite A1; unfold aes_rc; destruct (v_key_mem e); discriminate|eexists; reflexivity| |rewrite L96; change (length (@nil N)) with 0%nat; lia|exact A4].
    unfold fmt_file, fmt_body. eexists. rewrite <- app_assoc. reflexivity.
  - apply (HFAIL _ (fmt_96 scrypt_wrapping passwd h ++ w) d); [discriminate|exact A4| | |exact A6].
    + destruct A5 as [c A5]. unfold fmt_file, fmt_body. eexists. rewrite A5 at 1. rewrite <- !app_assoc. reflexivity.
    + pose proof (prefix_length _ _ A5) as L. rewrite aes_ctr_length in L. rewrite app_length, L96. lia.
  - apply (HFAIL _ (fmt_body scrypt_wrapping passwd h d) d); [discriminate|exact A6| | |exact A7].
    + unfold fmt_file. eexists. reflexivity.
    + rewrite fmt_body_length by exact HS. lia.
  - apply (HFAIL _ (firstn (96 + length (stream_data fi) + k) (fmt_file scrypt_wrapping passwd h (stream_data fi))) (stream_data fi)); [discriminate|exact A7|apply prefix_firstn| |exact A8].
    rewrite firstn_length, HLF. lia.
  - exists (fmt_file scrypt_wrapping passwd h (stream_data fi)). split; [exact A7|]. right. exists h, (stream_data fi).
    split; [exact Hh|]. split; [exact A6|]. split; [apply prefix_refl|]. tauto.
Qed.
(** An encryption that was interrupted - by a fault, or by a crash after which only
    a beginning t of what it wrote is left - never turns into wrong plaintext: a
    decryption of t, with the same passphrase but in any environment, releases only
    a beginning of the original input; and it reports success only if t is the
    complete file of a beginning of the input or ends with a lucky tag. *)
Theorem C62_interrupted M cfg lb hp e fi fo passwd P verbose force o t
    M' cfg' lb' hp' e' fi' fo' P' verbose' force' o' :
  enc_ready M lb hp e passwd P -> instream_ok fi ->
  scryptenc_file M cfg lb hp e fi fo passwd P verbose force = Ok o ->
  o_data fo = [] -> prefix t (o_data (snd (oc_val o))) ->
  dec_ready M' hp' passwd -> instream_ok fi' -> stream_data (no_errors fi') = t ->
  scryptdec_file M' cfg' lb' hp' e' fi' fo' passwd P' verbose' force' = Ok o' ->
  exists w h data, o_data (snd (oc_val o')) = o_data fo' ++ w /\ fhead_ok h /\ prefix data (stream_data (no_errors fi)) /\ prefix w data /\
    (oc_rc o' = SCRYPT_OK -> t = fmt_file scrypt_wrapping passwd h data /\ w = data \/ lucky_tag passwd h data t).
Proof.
  intros HR HI E HF HT HR' HI' ES E'. destruct (C62_written M cfg lb hp e fi fo passwd P verbose force o HR HI E) as (w0 & E1 & HW).
  rewrite HF in E1. cbn [app] in E1. rewrite E1 in HT. clear E1.
  set (h0 := mk_fh 14 8 1 (repeat 0 32)).
  assert (fhead_ok h0) as Hh0. { unfold fhead_ok, h0. cbn [fh_logN fh_r fh_p fh_salt]. repeat split; try lia; try (vm_compute; congruence). apply Forall_forall. intros x Hx. apply repeat_spec in Hx. subst x. reflexivity. }
  assert (exists h data, fhead_ok h /\ prefix data (stream_data (no_errors fi)) /\ prefix t (fmt_file scrypt_wrapping passwd h data)) as (h & data & Hh & H1 & H2).
  { destruct HW as [(-> & _)|(h & data & Hh & H1 & H2 & _)].
    - exists h0, []. split; [exact Hh0|]. split; [eexists; reflexivity|]. destruct HT as [c HT]. destruct t; [eexists; reflexivity|discriminate HT].
    - exists h, data. split; [exact Hh|]. split; [exact H1|]. exact (prefix_trans _ _ _ HT H2). }
  rewrite <- ES in H2. destruct (C62_truncated_stream M' cfg' lb' hp' e' fi' fo' passwd P' verbose' force' o' h data HR' HI' Hh H2 E') as (w & A1 & A2 & _ & A4).
  exists w, h, data. split; [exact A1|]. split; [exact Hh|]. split; [exact H1|]. split; [exact A2|]. intros HOK. rewrite <- ES. exact (proj2 (A4 HOK)).
Qed.
(** Encrypting "hello" in three pieces; a crash leaves the first 130 of 133 bytes;
    decryption of that. *)
Example C62_hyps : let fi := mk_in [([104], false); ([101; 108], false); ([108; 111], false)] false in let fo := mk_out [] [] false in
  exists o t fi' o', enc_ready ex_machine ex_lib ex_heap ex_call ex_passwd ex_P /\ instream_ok fi /\
  scryptenc_file ex_machine ex_cfg ex_lib ex_heap ex_call fi fo ex_passwd ex_P true true = Ok o /\
  length t = 130%nat /\ prefix t (o_data (snd (oc_val o))) /\ length (o_data (snd (oc_val o))) = 133%nat /\
  dec_ready ex_machine ex_heap ex_passwd /\ instream_ok fi' /\ stream_data (no_errors fi') = t /\
  scryptdec_file ex_machine ex_cfg ex_lib ex_heap ex_call fi' fo ex_passwd ex_P0 false true = Ok o' /\
  exists h, fhead_ok h /\ prefix t (fmt_file scrypt_wrapping ex_passwd h ex_data).
Proof.
  cbv zeta. set (fi := mk_in [([104], false); ([101; 108], false); ([108; 111], false)] false). set (fo := mk_out [] [] false).
  destruct C03_hyps as (ob & HDE & HG & Eb & ER). fold fi in HDE. fold fo in HG.
  assert (enc_ready ex_machine ex_lib ex_heap ex_call ex_passwd ex_P) as HR by (apply ex_enc_ready; split; reflexivity).
  assert (data_ok ex_data) as HD by (split; [repeat constructor|reflexivity]).
  assert (instream_ok fi) as HI by (split; [repeat constructor|reflexivity]).
  assert (length ex_data + 128 <= length (repeat 0%N 140))%nat as HL by (vm_compute; lia).
  destruct (C03_stream_equals_buffer ex_machine ex_cfg ex_lib ex_heap ex_call ex_data (repeat 0 140) fi fo ex_passwd ex_P true true ob HR HD HL HDE HG eq_refl Eb) as (o & E & E1 & _ & _ & _ & E3).
  assert (oc_rc o = SCRYPT_OK) as ER' by (rewrite E1; exact ER).
  destruct (C62_written ex_machine ex_cfg ex_lib ex_heap ex_call fi fo ex_passwd ex_P true true o HR HI E) as (w & W1 & [(_ & W2)|(h & d & Hh & W2 & W3 & W4)]); [destruct (W2 ER')|].
  apply W4 in ER'. change (o_data fo) with (@nil N) in W1. rewrite app_nil_l in W1.
  assert (d = ex_data) as Hd.
  { apply prefix_same; [exact W2|].
    specialize (E3 ER). change (o_data fo) with (@nil N) in E3. rewrite app_nil_l in E3. rewrite W1, ER' in E3. apply (f_equal (@length N)) in E3. rewrite fmt_file_length, firstn_length in E3 by apply Hh.
    destruct (C02_format ex_machine ex_cfg ex_lib ex_heap ex_call ex_data (repeat 0 140) ex_passwd ex_P true true HR HD HL ob Eb ER) as (l2 & r2 & p2 & s2 & st2 & _ & Hh2 & _ & _ & _ & EF & _).
    rewrite EF, app_length, fmt_file_length in E3 by apply Hh2. change (length ex_data) with 5%nat in E3. change (length ex_data) with 5%nat. lia. }
  subst d. assert (length w = 133%nat) as LW by (rewrite ER', fmt_file_length by apply Hh; reflexivity).
  assert (bytes_ok w) as HB by (rewrite ER'; apply fmt_file_ok; [exact Hh|repeat constructor]).
  set (t := firstn 130 w). assert (length t = 130%nat) as LT by (unfold t; rewrite firstn_length; lia).
  assert (data_ok t) as HT by (split; [apply Forall_firstn; exact HB|rewrite LT; reflexivity]).
  assert (t <> []) as HNE by (intros EQ; rewrite EQ in LT; discriminate LT).
  assert (delivered t (mk_in [(t, false)] false)) as HDT. { split; [reflexivity|]. split; [constructor; [split; [exact HNE|reflexivity]|constructor]|]. cbn [i_pieces map fst concat]. apply app_nil_r. }
  destruct (C06_status_stream ex_machine ex_cfg ex_lib ex_heap ex_call t (mk_in [(t, false)] false) fo ex_passwd ex_P0 false ex_dec_ready HT HDT HG eq_refl eq_refl ex_no_failure) as (o' & E' & _).
  assert (stream_data (no_errors (mk_in [(t, false)] false)) = t) as ST. { unfold stream_data, no_errors. cbn [i_pieces map fst pieces_data]. destruct t; [congruence|]. apply app_nil_r. }
  exists o, t, (mk_in [(t, false)] false), o'. split; [exact HR|]. split; [exact HI|]. split; [exact E|]. split; [exact LT|]. rewrite W1.
  split; [apply prefix_firstn|]. split; [exact LW|]. split; [exact ex_dec_ready|]. split.
  { split; [|rewrite ST; apply HT]. constructor; [exact (proj1 HT)|constructor]. }
  split; [exact ST|]. split; [exact E'|]. exists h. split; [exact Hh|]. rewrite <- ER'. apply prefix_firstn.
Qed.
Definition Prop_crash_all := (C62_truncated_buffer, C62_truncated_stream, C62_written, C62_interrupted).
Print Assumptions Prop_crash_all.
