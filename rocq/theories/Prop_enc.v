(** Properties C01 - C06: encryption and decryption of buffers and streams. *)
From Verif Require Import Base SpecBytes SpecSHA SpecScrypt SpecScryptAPI SpecAES SpecDRBG SpecFormat SpecStream
  M_endian P_endian M_sha256_tr M_simd M_sha256_hw M_sha256 P_sha256 M_smix M_aes_hw M_aesctr P_aes P_aesctr P_scrypt P_scrypt_ref
  M_scrypt_sel P_scrypt_sel Prop_scrypt Prop_aes M_verify P_verify M_entropy P_entropy Prop_entropy M_machine M_double M_memlimit M_cpuperf
  M_humansize P_humansize M_params Prop_params M_stdio P_stdio M_scryptenc SpecScryptenc P_scryptenc P_scryptenc2 P_scryptenc3 P_scryptenc4 P_scryptenc5
  P_scryptenc6 P_scryptenc7 P_scryptenc8 P_scryptenc9 P_scryptenc10 P_scryptenc11.
Local Opaque ENCBLOCK.

(** ** A concrete environment in which everything works *)
Definition ex_os : os_ent := mk_os true true (fun i => Some (repeat 7 48)) 0 true.
Definition ex_ent : ent_env := mk_ee (fun _ => ex_os) true (fun k i => Some 151587081).
Definition ex_call : call_env :=
  mk_env ex_env ex_ent (mk_alloc true true true true) (mk_alloc true true true true) (mk_alloc true true true true) true true true.
Definition ex_lib : lib := mk_lib None drbg_initial.
Definition ex_heap : kheap := mk_kh 0 [] [].
(** N = 2^14, r = 8, p = 1 / chosen automatically *)
Definition ex_P : xparams := mk_xp (ex_lim dinf) 14 8 1.
Definition ex_P0 : xparams := mk_xp (ex_lim dinf) 0 0 0.
Definition ex_passwd : bytes := [112; 119].
Definition ex_data : bytes := [104; 101; 108; 108; 111].
Lemma ex_no_failure : no_failure ex_call.
Proof. repeat split. Qed.
Lemma ex_dec_ready : dec_ready ex_machine ex_heap ex_passwd.
Proof. constructor; [right; reflexivity|repeat constructor|constructor]. Qed.
Lemma ex_enc_ready P : xp_ok P -> enc_ready ex_machine ex_lib ex_heap ex_call ex_passwd P.
Proof.
  intros HP. constructor; [exact ex_dec_ready|exact HP| |discriminate].
  split; cbn.
  - intros k i d E. injection E as <-. repeat constructor.
  - intros k i w E. injection E as <-. reflexivity.
Qed.
Lemma ex_salt : exists salt d, crypto_entropy_read (m_sha ex_machine) (m_junk ex_machine) ex_ent drbg_initial 32 = Ok (Some salt, d) /\ length salt = 32%nat /\ bytes_ok salt.
Proof.
  destruct (C33_succeeds (m_sha ex_machine) (m_junk ex_machine) ex_ent drbg_initial 32) as (s & d & E & L & B & _); eauto 10.
  - apply (ex_enc_ready ex_P). split; reflexivity.
  - discriminate.
  - intros k len Hl. exists (repeat 7 len). repeat (split; [reflexivity|]).
    assert (oe_read (ce_os ex_ent k) 0 = Some (repeat 7 48)) as HR by reflexivity.
    destruct Hl as [-> | ->].
    + change (repeat 7 48) with (firstn 48 (repeat 7 48) ++ ([] : bytes)). apply del_read; [lia|exact HR|discriminate|]. constructor.
    + change (repeat 7 32) with (firstn 32 (repeat 7 48) ++ ([] : bytes)). apply del_read; [lia|exact HR|discriminate|]. constructor.
Qed.

(** ** C02.  Successful encryption yields exactly the documented format, with
    the salt delivered by the generator, keys derived by scrypt (RFC 7914 if
    p <= 2^25, see C19) and the parameters reported back. *)
Section C02.
  Context (M : machine) (cfg : clk_cfg) (lb : lib) (hp : kheap) (e : call_env) (data outbuf passwd : bytes) (P : xparams) (verbose force : bool).
  Hypothesis HR : enc_ready M lb hp e passwd P.
  Hypothesis HD : data_ok data.
  Hypothesis HO : (length data + 128 <= length outbuf)%nat.
  Theorem C02_format o :
    scryptenc_buf M cfg lb hp e data outbuf passwd P verbose force = Ok o -> oc_rc o = SCRYPT_OK ->
    exists logN r p salt st', let h := mk_fh logN r p salt in
      crypto_entropy_read (m_sha M) (m_junk M) (v_ent e) (lb_drbg lb) 32 = Ok (Some salt, st') /\
      fhead_ok h /\ computable M h /\
      oc_P o = mk_xp (x_lim P) (Z.of_N logN) r p /\ (x_logN P <> 0%Z -> oc_P o = P) /\
      oc_val o = fmt_file scrypt_wrapping passwd h data ++ skipn (length data + 128) outbuf /\
      (p <= 2 ^ 25 -> oc_val o = fmt_file scrypt passwd h data ++ skipn (length data + 128) outbuf) /\
      length (fmt_file scrypt_wrapping passwd h data) = (length data + 128)%nat.
  Proof.
    intros E HOK. destruct HR as [[Hs HPW HH] HXP HE HDR], HD as [HD1 HD2].
    apply scryptenc_buf_inv in E; auto. destruct E as (_ & _ & _ & _ & _ & HPP & E). rewrite HOK in E.
    remember SCRYPT_OK as ok eqn:EOK. remember (oc_P o) as Po eqn:EPo. remember (oc_val o) as V eqn:EV. clear EPo EV HOK.
    destruct E as [rc P' A1 A2|rc h A1 A2|h A1 A2 [d A3]]; [congruence|rewrite A1 in EOK; unfold aes_rc in EOK; destruct (v_key_mem e); discriminate|].
    exists (fh_logN h), (fh_r h), (fh_p h), (fh_salt h), d. destruct h as [logN r p salt]. cbn [fh_logN fh_r fh_p fh_salt].
    split; [exact A3|]. split; [exact A1|]. split; [exact A2|]. split; [reflexivity|]. split; [exact HPP|]. split; [reflexivity|].
    split; [|apply fmt_file_length; apply A1].
    intros Hp. assert (fmt_keys scrypt_wrapping passwd (mk_fh logN r p salt) = fmt_keys scrypt passwd (mk_fh logN r p salt)) as EK.
    { unfold fmt_keys. apply scrypt_wrapping_small; cbn [fh_r fh_p]; [apply A1|exact Hp]. }
    unfold fmt_file, fmt_body, fmt_96, key_hmac, key_enc. rewrite EK. reflexivity.
  Qed.
  (** With explicit valid parameters, limits overridden and nothing failing,
      encryption does succeed. *)
  Theorem C02_succeeds salt st' : force = true -> no_failure e -> (0 < x_logN P)%Z ->
    crypto_entropy_read (m_sha M) (m_junk M) (v_ent e) (lb_drbg lb) 32 = Ok (Some salt, st') ->
    computable M (mk_fh (Z.to_N (x_logN P)) (x_r P) (x_p P) salt) ->
    exists o, scryptenc_buf M cfg lb hp e data outbuf passwd P verbose force = Ok o /\ oc_rc o = SCRYPT_OK.
  Proof.
    intros -> HN HL ES HC. destruct HR as [[Hs HPW HH] HXP HE HDR], HD as [HD1 HD2].
    destruct (scryptenc_buf_force M cfg lb hp e data outbuf passwd P verbose salt st' Hs HXP HPW HE HDR HH HD1 HD2 HO HL HC HN ES) as (o & E & E1 & _).
    eauto.
  Qed.
End C02.
Lemma ex_encrypts : exists o, scryptenc_buf ex_machine ex_cfg ex_lib ex_heap ex_call ex_data (repeat 0 140) ex_passwd ex_P true true = Ok o /\ oc_rc o = SCRYPT_OK.
Proof.
  destruct ex_salt as (salt & d & E & L & B).
  refine (C02_succeeds ex_machine ex_cfg ex_lib ex_heap ex_call ex_data (repeat 0 140) ex_passwd ex_P true true _ _ _ salt d eq_refl ex_no_failure eq_refl E _).
  - apply ex_enc_ready. split; reflexivity.
  - split; [repeat constructor|reflexivity].
  - cbn. lia.
  - unfold computable. cbn [fh_logN fh_r fh_p ex_P x_logN x_r x_p ex_machine m_szb].
    change (Z.to_N 14) with 14. constructor; try (vm_compute; congruence); exists 14; split; [lia|reflexivity].
Qed.
Example C02_hyps : exists o, enc_ready ex_machine ex_lib ex_heap ex_call ex_passwd ex_P /\ data_ok ex_data /\
  scryptenc_buf ex_machine ex_cfg ex_lib ex_heap ex_call ex_data (repeat 0 140) ex_passwd ex_P true true = Ok o /\ oc_rc o = SCRYPT_OK.
Proof.
  destruct ex_encrypts as (o & E & R). exists o. split; [apply ex_enc_ready; split; reflexivity|]. split; [split; [repeat constructor|reflexivity]|]. auto.
Qed.

(** ** C05.  Decryption (resource checks disabled, nothing failing) succeeds
    exactly on the FORMAT files for that passphrase whose parameters are valid
    and computable on this machine, and returns the data of the file. *)
Lemma computable_mono M M2 h : m_szb M <= m_szb M2 -> computable M h -> computable M2 h.
Proof.
  intros HM [A1 A2 A3 A4 A5 A6 A7 A8]. assert (2 ^ m_szb M <= 2 ^ m_szb M2) by (apply N.pow_le_mono_r; lia).
  constructor; auto; lia.
Qed.
Lemma fmt_file_ok passwd h data : fhead_ok h -> bytes_ok data -> bytes_ok (fmt_file kdf passwd h data).
Proof.
  intros (A1 & A2 & A3 & A4 & A5 & A6) HD. unfold fmt_file, fmt_body.
  apply bytes_ok_app; split; [|apply hmac_ok]. apply bytes_ok_app; split; [apply fmt_96_ok; [lia|exact A6]|].
  apply aes_ctr_ok; [right; apply key_enc_length|apply key_enc_ok|exact HD].
Qed.
Section C05.
  Context (M : machine) (cfg : clk_cfg) (lb : lib) (hp : kheap) (e : call_env) (f outbuf : bytes) (outlen : N) (passwd : bytes) (P : xparams) (verbose : bool).
  Hypothesis HR : dec_ready M hp passwd.
  Hypothesis HD : data_ok f.
  Hypothesis HO : (length f - 128 <= length outbuf)%nat.
  Hypothesis HP : all_zero P = true.
  Hypothesis HN : no_failure e.
  Theorem C05_accepts_iff : exists o,
    scryptdec_buf M cfg lb hp e f outbuf outlen passwd P verbose true = Ok o /\
    (oc_rc o = SCRYPT_OK <->
     exists h data, f = fmt_file scrypt_wrapping passwd h data /\ fhead_ok h /\ computable M h) /\
    (forall h data, f = fmt_file scrypt_wrapping passwd h data -> fhead_ok h -> computable M h ->
       oc_val o = (data ++ skipn (length data) outbuf, N.of_nat (length data)) /\
       oc_P o = mk_xp (x_lim P) (Z.of_N (fh_logN h)) (fh_r h) (fh_p h)).
  Proof.
    destruct HR as [Hs HPW HH], HD as [HD1 HD2].
    destruct (scryptdec_buf_force M cfg lb hp e f outbuf outlen passwd P verbose Hs HPW HH HD1 HD2 HO HP HN) as (o & E & HC).
    exists o. split; [exact E|].
    apply scryptdec_buf_inv in E; auto. destruct E as (_ & _ & _ & _ & HRR).
    assert (oc_rc o = SCRYPT_OK <-> exists h data, f = fmt_file kdf passwd h data /\ fhead_ok h /\ computable M h) as HIFF.
    { split.
      - intros EO. rewrite EO in HC. inversion HC as [| | | | | | | |A1 A2 A3 A4 A5 A6 A7 A8].
        exists (get_head f). eexists. split; [|auto]. apply well_formed; auto.
      - intros (h & data & -> & H1 & H2). destruct (fmt_file_checks passwd h data H1) as (B1 & B2 & B3 & B4 & B5 & B6 & B7).
        assert (length (fmt_file kdf passwd h data) = (length data + 128)%nat) as LF by (apply fmt_file_length; apply H1).
        inversion HC as [A1|A1 A2 A3|A1 A2 A3|A1 A2 A3 A4|A1 A2 A3 A4 A5|A1 A2 A3 A4 A5 A6|A1 A2 A3 A4 A5 A6 A7|A1 A2 A3 A4 A5 A6 A7 A8|A1 A2 A3 A4 A5 A6 A7 A8]; try congruence; try contradiction.
        all: try (rewrite B1 in A5; contradiction); try (rewrite B1 in A6; contradiction); try lia.
        destruct A1; [lia|contradiction]. }
    split; [exact HIFF|]. intros h data Ef Hh Hc.
    assert (oc_rc o = SCRYPT_OK) as EO by (apply HIFF; eauto).
    rewrite EO in HRR. destruct (fmt_file_checks passwd h data Hh) as (B1 & B2 & B3 & B4 & B5 & B6 & B7).
    assert (length f = (length data + 128)%nat) as LF by (rewrite Ef; apply fmt_file_length; apply Hh).
    rewrite <- Ef in *.
    revert HRR. generalize (oc_msgs o) (oc_P o) (oc_val o). intros ms0 P0 V0 HRR.
    inversion HRR as [| | |rc lb' ms dk A1 A2 A3 A4 A5|rc lb' ms dk A1 A2 A3 A4 A5 A6|rc lb' ms dk A1 A2 A3 A4 A5 A6 A7]; subst P0 V0; try congruence.
    - rewrite A5 in *. unfold aes_rc in *. destruct (v_key_mem e); discriminate.
    - rewrite B1, B7. split; [|reflexivity].
      rewrite aes_ctr_involutive. replace (length f - 128)%nat with (length data) by lia. reflexivity.
  Qed.
End C05.
Definition ex_h : fhead := mk_fh 14 8 1 (repeat 5 32).
Lemma ex_h_ok : fhead_ok ex_h.
Proof. unfold fhead_ok, ex_h. cbn [fh_logN fh_r fh_p fh_salt]. repeat split; try lia. repeat constructor. Qed.
Lemma ex_h_computable : computable ex_machine ex_h.
Proof.
  unfold computable. cbn [fh_logN fh_r fh_p ex_h ex_machine m_szb].
  constructor; try (vm_compute; congruence); exists 14; split; [lia|reflexivity].
Qed.
Example C05_hyps :
  let f := fmt_file kdf ex_passwd ex_h ex_data in fhead_ok ex_h /\ computable ex_machine ex_h /\
  dec_ready ex_machine ex_heap ex_passwd /\ data_ok f /\ all_zero ex_P0 = true /\ no_failure ex_call.
Proof.
  intros f. pose proof ex_h_ok as Hh. split; [exact Hh|]. split; [exact ex_h_computable|]. split; [exact ex_dec_ready|]. split; [|split; [reflexivity|exact ex_no_failure]].
  split; [apply fmt_file_ok; [exact Hh|repeat constructor]|].
  unfold f. rewrite fmt_file_length by apply Hh. reflexivity.
Qed.

(** The stream form accepts the same inputs, whatever the read schedule, and
    writes the data of the file. *)
Theorem C05_stream_accepts_iff M cfg lb hp e f fi fo passwd P verbose :
  dec_ready M hp passwd -> data_ok f -> delivered f fi -> out_good fo -> o_err fo = false -> all_zero P = true -> no_failure e ->
  exists o, scryptdec_file M cfg lb hp e fi fo passwd P verbose true = Ok o /\
    (oc_rc o = SCRYPT_OK <->
     exists h data, f = fmt_file scrypt_wrapping passwd h data /\ fhead_ok h /\ computable M h) /\
    (forall h data, f = fmt_file scrypt_wrapping passwd h data -> fhead_ok h -> computable M h ->
       o_data (snd (oc_val o)) = o_data fo ++ data /\
       oc_P o = mk_xp (x_lim P) (Z.of_N (fh_logN h)) (fh_r h) (fh_p h)).
Proof.
  intros [Hs HPW HH] [HD1 HD2] HDE HG HER HZ HN.
  destruct (dec_file_force M cfg lb hp e f fi fo passwd P verbose Hs HPW HH HD1 HD2 HDE HG HER HZ HN) as (o & E & HC & HO & _).
  exists o. split; [exact E|].
  assert (oc_rc o = SCRYPT_OK <-> exists h data, f = fmt_file kdf passwd h data /\ fhead_ok h /\ computable M h) as HIFF.
  { split.
    - intros EO. rewrite EO in HC. inversion HC as [rc _ HC2| | | | | | |]. subst rc.
      inversion HC2 as [| | | | | | | |A1 A2 A3 A4 A5 A6 A7 A8].
      exists (get_head f). eexists. split; [|auto]. apply well_formed; auto.
    - intros (h & data & -> & H1 & H2). destruct (fmt_file_checks passwd h data H1) as (B1 & B2 & B3 & B4 & B5 & B6 & B7).
      assert (length (fmt_file kdf passwd h data) = (length data + 128)%nat) as LF by (apply fmt_file_length; apply H1).
      inversion HC as [rc _ HC2| | | | | | |]; try lia. clear HC. rename HC2 into HC. subst rc.
      inversion HC as [A1|A1 A2 A3|A1 A2 A3|A1 A2 A3 A4|A1 A2 A3 A4 A5|A1 A2 A3 A4 A5 A6|A1 A2 A3 A4 A5 A6 A7|A1 A2 A3 A4 A5 A6 A7 A8|A1 A2 A3 A4 A5 A6 A7 A8]; try congruence; try contradiction.
      all: try (rewrite B1 in A5; contradiction); try (rewrite B1 in A6; contradiction); try lia.
      destruct A1; [lia|contradiction]. }
  split; [exact HIFF|]. intros h data Ef Hh Hc.
  assert (oc_rc o = SCRYPT_OK) as EO by (apply HIFF; eauto). destruct (HO EO) as [W EP].
  destruct (fmt_file_checks passwd h data Hh) as (B1 & _ & _ & _ & _ & _ & B7). rewrite <- Ef in *.
  rewrite W, EP, B1, B7, aes_ctr_involutive. auto.
Qed.
Example C05_stream_hyps : delivered ex_data (mk_in [([104], false); ([101; 108], false); ([108; 111], false)] false) /\ out_good (mk_out [1; 2] [] false).
Proof. split; [|constructor]. split; [reflexivity|]. split; [|reflexivity]. repeat constructor; discriminate. Qed.

(** ** C01.  What encryption produced, decryption on any (other) machine with
    at least as wide a size_t, in any library state, returns unchanged. *)
Theorem C01_round_trip M cfg lb hp e data outbuf passwd P verbose force o :
  enc_ready M lb hp e passwd P -> data_ok data -> N.of_nat (length data + 128) < 2 ^ 64 -> (length data + 128 <= length outbuf)%nat ->
  scryptenc_buf M cfg lb hp e data outbuf passwd P verbose force = Ok o -> oc_rc o = SCRYPT_OK ->
  forall M2 cfg2 lb2 hp2 e2 outbuf2 outlen2 P2 verbose2,
    dec_ready M2 hp2 passwd -> m_szb M <= m_szb M2 -> all_zero P2 = true -> no_failure e2 -> (length data <= length outbuf2)%nat ->
    exists o2, scryptdec_buf M2 cfg2 lb2 hp2 e2 (firstn (length data + 128) (oc_val o)) outbuf2 outlen2 passwd P2 verbose2 true = Ok o2 /\
      oc_rc o2 = SCRYPT_OK /\
      oc_val o2 = (data ++ skipn (length data) outbuf2, N.of_nat (length data)) /\
      x_logN (oc_P o2) = x_logN (oc_P o) /\ x_r (oc_P o2) = x_r (oc_P o) /\ x_p (oc_P o2) = x_p (oc_P o).
Proof.
  intros HR HD HL HO E EO M2 cfg2 lb2 hp2 e2 outbuf2 outlen2 P2 verbose2 HR2 HM HZ HN HO2.
  destruct (C02_format M cfg lb hp e data outbuf passwd P verbose force HR HD HO o E EO) as (logN & r & p & salt & st' & _ & Hh & Hc & EP & _ & EV & _ & LF).
  rewrite EV, firstn_app_len by (symmetry; exact LF).
  apply (computable_mono M M2 _ HM) in Hc.
  destruct (C05_accepts_iff M2 cfg2 lb2 hp2 e2 (fmt_file kdf passwd (mk_fh logN r p salt) data) outbuf2 outlen2 passwd P2 verbose2 HR2) as (o2 & E2 & HI & HV); auto.
  { split; [apply fmt_file_ok; [exact Hh|apply HD]|rewrite LF; exact HL]. }
  { rewrite LF. lia. }
  exists o2. split; [exact E2|]. split; [apply HI; eauto|].
  destruct (HV _ _ eq_refl Hh Hc) as [A B]. split; [exact A|]. rewrite B, EP. cbn [x_logN x_r x_p fh_logN fh_r fh_p]. auto.
Qed.
Example C01_hyps : exists o, enc_ready ex_machine ex_lib ex_heap ex_call ex_passwd ex_P /\
  scryptenc_buf ex_machine ex_cfg ex_lib ex_heap ex_call ex_data (repeat 0 140) ex_passwd ex_P true true = Ok o /\ oc_rc o = SCRYPT_OK /\
  dec_ready ex_machine ex_heap ex_passwd /\ all_zero ex_P0 = true /\ no_failure ex_call.
Proof.
  destruct ex_encrypts as (o & E & R). exists o. split; [apply ex_enc_ready; split; reflexivity|]. split; [exact E|]. split; [exact R|].
  split; [exact ex_dec_ready|]. split; [reflexivity|exact ex_no_failure].
Qed.

(** ** C03.  Stream encryption: same status, messages and reported parameters as
    buffer encryption, and on success exactly the bytes buffer encryption
    produces, for every way [fi] delivers [data]. *)
Theorem C03_stream_equals_buffer M cfg lb hp e data outbuf fi fo passwd P verbose force ob :
  enc_ready M lb hp e passwd P -> data_ok data -> (length data + 128 <= length outbuf)%nat ->
  delivered data fi -> out_good fo -> o_err fo = false ->
  scryptenc_buf M cfg lb hp e data outbuf passwd P verbose force = Ok ob ->
  exists of, scryptenc_file M cfg lb hp e fi fo passwd P verbose force = Ok of /\
    oc_rc of = oc_rc ob /\ oc_msgs of = oc_msgs ob /\ oc_P of = oc_P ob /\ oc_lib of = oc_lib ob /\
    (oc_rc ob = SCRYPT_OK -> o_data (snd (oc_val of)) = o_data fo ++ firstn (length data + 128) (oc_val ob)).
Proof.
  intros [[Hs HPW HH] HXP HE HDR] [HD1 HD2] HO HDE HG HER E.
  destruct (enc_forms_agree M cfg lb hp e data outbuf fi fo passwd P verbose force ob Hs HXP HPW HE HDR HH HD1 HD2 HO HDE HG HER E) as (of & E1 & A1 & A2 & A3 & A4 & A5).
  exists of. auto 10.
Qed.
Example C03_hyps : exists ob, delivered ex_data (mk_in [([104], false); ([101; 108], false); ([108; 111], false)] false) /\ out_good (mk_out [] [] false) /\
  scryptenc_buf ex_machine ex_cfg ex_lib ex_heap ex_call ex_data (repeat 0 140) ex_passwd ex_P true true = Ok ob /\ oc_rc ob = SCRYPT_OK.
Proof.
  destruct ex_encrypts as (o & E & R). exists o. split; [apply C05_stream_hyps|]. split; [constructor|]. auto.
Qed.
(** Hence encrypting a stream and decrypting the result as a stream, under any
    two read schedules, gives back the data. *)
Theorem C01_stream_round_trip M cfg lb hp e data outbuf fi fo passwd P verbose force ob :
  enc_ready M lb hp e passwd P -> data_ok data -> N.of_nat (length data + 128) < 2 ^ 64 -> (length data + 128 <= length outbuf)%nat ->
  delivered data fi -> out_good fo -> o_err fo = false ->
  scryptenc_buf M cfg lb hp e data outbuf passwd P verbose force = Ok ob -> oc_rc ob = SCRYPT_OK ->
  exists of f, scryptenc_file M cfg lb hp e fi fo passwd P verbose force = Ok of /\ oc_rc of = SCRYPT_OK /\
    o_data (snd (oc_val of)) = o_data fo ++ f /\
    forall M2 cfg2 lb2 hp2 e2 fi2 fo2 P2 verbose2,
      dec_ready M2 hp2 passwd -> m_szb M <= m_szb M2 -> all_zero P2 = true -> no_failure e2 ->
      delivered f fi2 -> out_good fo2 -> o_err fo2 = false ->
      exists o2, scryptdec_file M2 cfg2 lb2 hp2 e2 fi2 fo2 passwd P2 verbose2 true = Ok o2 /\
        oc_rc o2 = SCRYPT_OK /\ o_data (snd (oc_val o2)) = o_data fo2 ++ data /\
        x_logN (oc_P o2) = x_logN (oc_P of) /\ x_r (oc_P o2) = x_r (oc_P of) /\ x_p (oc_P o2) = x_p (oc_P of).
Proof.
  intros HR HD HL HO HDE HG HER E EO.
  destruct (C03_stream_equals_buffer M cfg lb hp e data outbuf fi fo passwd P verbose force ob HR HD HO HDE HG HER E) as (of & E1 & A1 & A2 & A3 & A4 & A5).
  destruct (C02_format M cfg lb hp e data outbuf passwd P verbose force HR HD HO ob E EO) as (logN & r & p & salt & st' & _ & Hh & Hc & EP & _ & EV & _ & LF).
  exists of, (fmt_file kdf passwd (mk_fh logN r p salt) data). split; [exact E1|]. split; [congruence|].
  split. { rewrite (A5 EO), EV, firstn_app_len by (symmetry; exact LF). reflexivity. }
  intros M2 cfg2 lb2 hp2 e2 fi2 fo2 P2 verbose2 HR2 HM HZ HN HDE2 HG2 HER2.
  apply (computable_mono M M2 _ HM) in Hc.
  destruct (C05_stream_accepts_iff M2 cfg2 lb2 hp2 e2 (fmt_file kdf passwd (mk_fh logN r p salt) data) fi2 fo2 passwd P2 verbose2 HR2) as (o2 & E2 & HI & HV); auto.
  { split; [apply fmt_file_ok; [exact Hh|apply HD]|rewrite LF; exact HL]. }
  exists o2. split; [exact E2|]. split; [apply HI; eauto|].
  destruct (HV _ _ eq_refl Hh Hc) as [A B]. split; [exact A|]. rewrite B, A3, EP. cbn [x_logN x_r x_p fh_logN fh_r fh_p]. auto.
Qed.
Definition Prop_enc_all := (C02_format, C02_succeeds, C05_accepts_iff, C05_stream_accepts_iff, C01_round_trip, C03_stream_equals_buffer, C01_stream_round_trip).
Print Assumptions Prop_enc_all.
