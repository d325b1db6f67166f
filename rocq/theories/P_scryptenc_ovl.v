(** Proofs about M_scryptenc_ovl. *)
From Verif Require Import Base SpecBytes SpecSHA SpecScrypt SpecScryptAPI SpecAES SpecDRBG SpecFormat
  M_endian P_endian M_sha256 P_sha256 M_smix M_aes_hw M_aesctr P_aesctr P_scrypt P_scrypt_ref
  M_scrypt_sel P_scrypt_sel Prop_scrypt M_verify P_verify M_entropy P_entropy M_machine M_double M_memlimit M_cpuperf
  M_humansize M_params M_stdio P_stdio M_scryptenc SpecScryptenc P_scryptenc P_scryptenc2 P_scryptenc3 P_scryptenc4
  M_aesctr_mem P_aesctr_mem M_scryptenc_ovl.

(** ** Address ranges *)
Lemma upd_sub {A} (m : list A) o n : (o + n <= length m)%nat -> upd m o (sub m o n) = m.
Proof.
  intros H. unfold upd. rewrite sub_length by lia. unfold sub. rewrite <- (firstn_skipn o m) at 4. f_equal.
  rewrite <- (firstn_skipn n (skipn o m)) at 2. f_equal. rewrite skipn_skipn. f_equal. lia.
Qed.
Lemma upd_nested {A} (m a d : list A) o k : (k + length d <= length a)%nat -> (o + length a <= length m)%nat ->
  upd (upd m o a) (o + k) d = upd m o (upd a k d).
Proof.
  intros H1 H2. apply list_ext. intros j. rewrite nth_error_upd by (rewrite upd_length; lia).
  rewrite (nth_error_upd m o (upd a k d)) by (rewrite upd_length; lia). rewrite upd_length by lia.
  rewrite nth_error_upd by lia.
  destruct (Nat.ltb_spec j (o + k)); destruct (Nat.ltb_spec j o); try lia; try reflexivity.
  - destruct (Nat.ltb_spec j (o + length a)); [|lia]. rewrite nth_error_upd by lia. destruct (Nat.ltb_spec (j - o) k); [reflexivity|lia].
  - destruct (Nat.ltb_spec j (o + k + length d)); destruct (Nat.ltb_spec j (o + length a)); try lia; try reflexivity.
    + rewrite nth_error_upd by lia. destruct (Nat.ltb_spec (j - o) k); [lia|]. destruct (Nat.ltb_spec (j - o) (k + length d)); [|lia]. f_equal. lia.
    + rewrite nth_error_upd by lia. destruct (Nat.ltb_spec (j - o) k); [lia|]. destruct (Nat.ltb_spec (j - o) (k + length d)); [lia|reflexivity].
Qed.
Lemma sub_upd_in {A} (m a : list A) o k n : (k + n <= length a)%nat -> (o + length a <= length m)%nat ->
  sub (upd m o a) (o + k) n = sub a k n.
Proof.
  intros H1 H2. apply list_ext. intros j. rewrite !nth_error_sub by (rewrite ?upd_length; lia). rewrite nth_error_upd by lia.
  destruct (Nat.ltb_spec j n); [|reflexivity]. destruct (Nat.ltb_spec (o + k + j) o); [lia|].
  destruct (Nat.ltb_spec (o + k + j) (o + length a)); [|lia]. f_equal. lia.
Qed.
Lemma sub_upd_out {A} (m a : list A) o i n : (i + n <= length m)%nat -> (o + length a <= length m)%nat ->
  (i + n <= o \/ o + length a <= i)%nat -> sub (upd m o a) i n = sub m i n.
Proof.
  intros H1 H2 H3. apply list_ext. intros j. rewrite !nth_error_sub by (rewrite ?upd_length; lia). rewrite nth_error_upd by lia.
  destruct (Nat.ltb_spec j n); [|reflexivity]. destruct (Nat.ltb_spec (i + j) o); [reflexivity|].
  destruct (Nat.ltb_spec (i + j) (o + length a)); [lia|reflexivity].
Qed.
Lemma sub_sub {A} (m : list A) i n j k : (j + k <= n)%nat -> (i + n <= length m)%nat -> sub (sub m i n) j k = sub m (i + j) k.
Proof.
  intros H1 H2. unfold sub. rewrite skipn_firstn_comm, firstn_firstn, skipn_skipn. f_equal; [lia|]. f_equal. lia.
Qed.
Lemma wr_upd {A} (m : list A) o d : (o + length d <= length m)%nat -> wr m o d = Ok (upd m o d).
Proof. apply wr_ok. Qed.

Section Ovl.
  Context (M : machine) (cfg : clk_cfg).
  (** The outcome with another value. *)
  Definition with_val {A B} (o : outcome A) (v : B) : outcome B := mk_oc (oc_rc o) (oc_lib o) (oc_msgs o) (oc_P o) (oc_dk o) (oc_heap o) v.

  Lemma ovl_enc_ok lb hp e m inp n outp passwd P verbose force o :
    size_bits (m_szb M) -> xp_ok P -> bytes_ok passwd -> env_bytes (v_ent e) -> drbg_inv (lb_drbg lb) -> heap_ok hp ->
    bytes_ok m -> N.of_nat n < 2 ^ 64 -> (inp + n <= length m)%nat -> (outp + (n + 128) <= length m)%nat ->
    (inp + n <= outp \/ outp + 96 <= inp)%nat ->
    scryptenc_buf M cfg lb hp e (sub m inp n) (sub m outp (n + 128)) passwd P verbose force = Ok o ->
    length (oc_val o) = (n + 128)%nat /\
    ovl_scryptenc_buf M cfg lb hp e m inp n outp passwd P verbose force = Ok (with_val o (upd m outp (oc_val o))).
  Proof.
    intros Hs HXP HPW HE HD HH HM Hn HI HO HP E. unfold scryptenc_buf in E. unfold ovl_scryptenc_buf.
    assert (length (sub m inp n) = n) as LI by (apply sub_length; lia).
    assert (length (sub m outp (n + 128)) = (n + 128)%nat) as LO by (apply sub_length; lia).
    apply bind_inv in E. destruct E as (u & EA & E). rewrite EA, bind_Ok. clear EA u.
    apply bind_inv in E. destruct E as ([[[[[lb1 ms] P1] hd] dk] rc] & ES & E). rewrite ES, bind_Ok. cbv beta iota zeta in E |- *.
    eapply scryptenc_setup_inv in ES; auto using scratch_bytes_ok, scratch_bytes_length.
    destruct ES as (_ & LD & _ & _ & _ & HOK).
    destruct (is_ok rc) eqn:EO; cbn [negb] in E |- *.
    2:{ rewrite zero_dk_ok, bind_Ok in E by exact LD. injection E as <-. rewrite zero_dk_ok, bind_Ok by exact LD.
        cbn [oc_val with_val oc_rc oc_lib oc_msgs oc_P oc_dk oc_heap]. unfold with_val. cbn [oc_rc oc_lib oc_msgs oc_P oc_dk oc_heap]. split; [exact LO|]. rewrite upd_sub by lia. reflexivity. }
    apply is_ok_spec in EO. subst rc. destruct (HOK eq_refl) as (h & d & Hh & _ & _ & _ & EDK & EHD). clear HOK.
    assert (length hd = 96%nat) as L96 by (rewrite EHD; apply fmt_96_length; apply Hh).
    assert (bytes_ok dk) as OD by (rewrite EDK; apply keys_ok).
    assert (bytes_ok hd) as O96 by (rewrite EHD; apply fmt_96_ok; [destruct Hh; lia|apply Hh]).
    clear EDK EHD Hh h.
    rewrite wr_ok in E by lia. rewrite bind_Ok in E. rewrite wr_ok by lia. rewrite bind_Ok.
    set (out0 := sub m outp (n + 128)) in *. set (out1 := upd out0 0 hd) in *.
    assert (upd m outp hd = upd m outp out1) as EM1.
    { unfold out1. rewrite <- upd_nested by lia. unfold out0. rewrite Nat.add_0_r, upd_sub by lia. reflexivity. }
    assert (length out1 = (n + 128)%nat) as LO1 by (unfold out1; rewrite upd_length; lia).
    rewrite EM1.
    destruct (start_aes_cases M e hp dk LD OD HH) as [(K1 & ES)|[(K1 & K2 & ES)|(K1 & K2 & key & AES & ES & HK & HS)]];
      rewrite ES, bind_Ok in E; rewrite ES, bind_Ok; cbv beta iota in E |- *.
    1,2: rewrite zero_dk_ok, bind_Ok in E by exact LD; injection E as <-; rewrite zero_dk_ok, bind_Ok by exact LD;
      unfold with_val; cbn [oc_val oc_rc oc_lib oc_msgs oc_P oc_dk oc_heap]; auto.
    assert (length (upd m outp out1) = length m) as LM1 by (apply upd_length; lia).
    assert (sub (upd m outp out1) inp n = sub m inp n) as EIN.
    { rewrite <- EM1. apply sub_upd_out; [lia|lia|]. rewrite L96. lia. }
    destruct (stream_mem_ok (m_aes M) (m_hi M) (firstn 32 dk) 0 0 AES (mk_bufs (upd m outp out1) inp (outp + 96) n) HS) as (AES1 & E1 & E2 & _).
    { unfold usable. cbn [b_in b_out b_len b_mem]. lia. } { cbn [b_len]. lia. }
    unfold input in E1, E2. cbn [b_in b_out b_len b_mem] in E1, E2. rewrite EIN in E1, E2.
    rewrite E1, bind_Ok in E. rewrite E2, bind_Ok. cbv beta iota in E |- *. clear E1 E2.
    set (ct := aes_ctr (firstn 32 dk) 0 0 (sub m inp n)) in *.
    assert (length ct = n) as LC by (unfold ct; rewrite aes_ctr_length; exact LI). clearbody ct.
    rewrite upd_nested by lia. set (out2 := upd out1 96 ct) in *.
    assert (length out2 = (n + 128)%nat) as LO2 by (unfold out2; rewrite upd_length; lia).
    apply bind_inv in E. destruct E as (h1 & EH1 & E). rewrite EH1, bind_Ok.
    rewrite wr_ok in E by lia. rewrite bind_Ok in E. fold out2 in E. clearbody out2.
    apply bind_inv in E. destruct E as (h2 & EH2 & E). rewrite EH2, bind_Ok.
    apply bind_inv in E. destruct E as (h3 & EH3 & E). rewrite EH3, bind_Ok.
    apply bind_inv in E. destruct E as (K & EK & E). rewrite EK, bind_Ok.
    rewrite LI in E. rewrite rd_ok in E by lia. rewrite bind_Ok in E.
    rewrite rd_ok by (rewrite upd_length; lia). rewrite bind_Ok.
    assert (sub (upd m outp out2) outp (96 + n) = sub out2 0 (96 + n)) as ->.
    { rewrite <- (Nat.add_0_r outp) at 2. apply sub_upd_in; lia. }
    apply bind_inv in E. destruct E as (tag & ET & E). rewrite ET, bind_Ok.
    apply bind_inv in E. destruct E as (out3 & EW & E).
    assert (96 + n + length tag <= length out2)%nat as LT.
    { unfold wr in EW. destruct (Nat.leb_spec (96 + n + length tag) (length out2)); [assumption|discriminate]. }
    rewrite wr_ok in EW by lia. assert (out3 = upd out2 (96 + n) tag) as -> by congruence. clear EW.
    rewrite wr_ok by (rewrite upd_length; lia). rewrite bind_Ok. rewrite upd_nested by lia.
    rewrite zero_dk_ok, bind_Ok in E by exact LD. injection E as <-. rewrite zero_dk_ok, bind_Ok by exact LD.
    unfold with_val; cbn [oc_val oc_rc oc_lib oc_msgs oc_P oc_dk oc_heap]. split; [rewrite upd_length; lia|reflexivity].
  Qed.

  (** Decryption: the same until the plaintext is written; then the tag is
      computed over, and compared with, the memory as it is by then. *)
  Lemma ovl_dec_ok lb hp e m inp n outp outlen passwd P verbose force o :
    size_bits (m_szb M) -> bytes_ok passwd -> heap_ok hp ->
    bytes_ok m -> N.of_nat n < 2 ^ 64 -> (inp + n <= length m)%nat -> (outp + (n - 128) <= length m)%nat ->
    (outp <= inp + 96 \/ inp + 96 + (n - 128) <= outp)%nat ->
    let f := sub m inp n in
    scryptdec_buf M cfg lb hp e f (sub m outp (n - 128)) outlen passwd P verbose force = Ok o ->
    exists o', ovl_scryptdec_buf M cfg lb hp e m inp n outp outlen passwd P verbose force = Ok o' /\
      oc_val o' = (upd m outp (fst (oc_val o)), snd (oc_val o)) /\ length (fst (oc_val o)) = (n - 128)%nat /\
      oc_lib o' = oc_lib o /\ oc_msgs o' = oc_msgs o /\ oc_P o' = oc_P o /\ oc_dk o' = oc_dk o /\ oc_heap o' = oc_heap o /\
      ((oc_rc o' = oc_rc o /\ oc_rc o <> SCRYPT_OK /\ fst (oc_val o) = sub m outp (n - 128)) \/
       ((128 <= n)%nat /\
        (oc_rc o = SCRYPT_OK \/ oc_rc o = SCRYPT_EINVAL) /\ (oc_rc o' = SCRYPT_OK \/ oc_rc o' = SCRYPT_EINVAL) /\
        (oc_rc o = SCRYPT_OK <-> hmac (key_hmac kdf passwd (get_head f)) (sub f 0 (n - 32)) = sub f (n - 32) 32) /\
        (oc_rc o' = SCRYPT_OK <->
         hmac (key_hmac kdf passwd (get_head f)) (sub (upd m outp (fst (oc_val o))) inp (n - 32)) =
         sub (upd m outp (fst (oc_val o))) (inp + (n - 32)) 32))).
  Proof.
    intros Hs HPW HH HM Hn HI HO HP f E. unfold scryptdec_buf in E. unfold ovl_scryptdec_buf.
    assert (length f = n) as LI by (apply sub_length; lia). rewrite LI in E.
    assert (bytes_ok f) as OF by (apply bytes_ok_sub, HM).
    assert (length (sub m outp (n - 128)) = (n - 128)%nat) as LO by (apply sub_length; lia).
    apply bind_inv in E. destruct E as (u & EA & E). rewrite EA, bind_Ok. clear EA u. cbv zeta in E |- *.
    assert (forall c lb1 ms P1 dk hp1, c <> SCRYPT_OK -> Ok (mk_oc c lb1 ms P1 dk hp1 (sub m outp (n - 128), outlen)) = Ok o ->
      exists o', Ok (mk_oc c lb1 ms P1 dk hp1 (m, outlen)) = Ok o' /\
      oc_val o' = (upd m outp (fst (oc_val o)), snd (oc_val o)) /\ length (fst (oc_val o)) = (n - 128)%nat /\
      oc_lib o' = oc_lib o /\ oc_msgs o' = oc_msgs o /\ oc_P o' = oc_P o /\ oc_dk o' = oc_dk o /\ oc_heap o' = oc_heap o /\
      ((oc_rc o' = oc_rc o /\ oc_rc o <> SCRYPT_OK /\ fst (oc_val o) = sub m outp (n - 128)) \/
       ((128 <= n)%nat /\
        (oc_rc o = SCRYPT_OK \/ oc_rc o = SCRYPT_EINVAL) /\ (oc_rc o' = SCRYPT_OK \/ oc_rc o' = SCRYPT_EINVAL) /\
        (oc_rc o = SCRYPT_OK <-> hmac (key_hmac kdf passwd (get_head f)) (sub f 0 (n - 32)) = sub f (n - 32) 32) /\
        (oc_rc o' = SCRYPT_OK <->
         hmac (key_hmac kdf passwd (get_head f)) (sub (upd m outp (fst (oc_val o))) inp (n - 32)) =
         sub (upd m outp (fst (oc_val o))) (inp + (n - 32)) 32)))) as EARLY.
    { intros c lb1 ms P1 dk hp1 HC EQ. injection EQ as <-. eexists. split; [reflexivity|].
      cbn [oc_val oc_rc oc_lib oc_msgs oc_P oc_dk oc_heap fst snd]. rewrite upd_sub by lia. auto 12. }
    destruct (Nat.ltb_spec n 7) as [H7|H7]; [apply EARLY; [discriminate|exact E]|].
    rewrite rd_ok in E by lia. rewrite bind_Ok in E. rewrite rd_ok by lia. rewrite bind_Ok.
    assert (sub f 0 6 = sub m inp 6) as E6 by (unfold f; rewrite sub_sub by lia; f_equal; lia). rewrite E6 in E.
    destruct (list_eqb (sub m inp 6) magic); cbn [negb] in E |- *; [|apply EARLY; [discriminate|exact E]].
    rewrite rd_ok in E by lia. rewrite bind_Ok in E. rewrite rd_ok by lia. rewrite bind_Ok.
    assert (sub f 6 1 = sub m (inp + 6) 1) as E7 by (unfold f; rewrite sub_sub by lia; reflexivity). rewrite E7 in E.
    destruct (sel (sub m (inp + 6) 1) 0 =? 0); cbn [negb] in E |- *; [|apply EARLY; [discriminate|exact E]].
    destruct (Nat.ltb_spec n 128) as [H128|H128]; [apply EARLY; [discriminate|exact E]|].
    rewrite rd_ok by lia. rewrite bind_Ok. fold f.
    apply bind_inv in E. destruct E as ([[[[lb1 ms] P1] dk] rc] & ES & E). rewrite ES, bind_Ok. cbv beta iota zeta in E |- *.
    eapply scryptdec_setup_inv in ES; auto using scratch_bytes_ok, scratch_bytes_length; [|lia].
    destruct ES as (_ & LD & _ & RES).
    destruct (is_ok rc) eqn:EO; cbn [negb] in E |- *.
    2:{ apply is_ok_false in EO. rewrite zero_dk_ok, bind_Ok in E by exact LD. rewrite zero_dk_ok, bind_Ok by exact LD. apply EARLY; assumption. }
    apply is_ok_spec in EO. subst rc.
    assert (dk = fmt_keys kdf passwd (get_head f)) as EDK by (inversion RES; [contradiction|reflexivity]). clear RES.
    assert (bytes_ok dk) as OD by (rewrite EDK; apply keys_ok).
    destruct (start_aes_cases M e hp dk LD OD HH) as [(K1 & ES)|[(K1 & K2 & ES)|(K1 & K2 & key & AES & ES & HK & HS)]];
      rewrite ES, bind_Ok in E; rewrite ES, bind_Ok; cbv beta iota in E |- *.
    1,2: rewrite zero_dk_ok, bind_Ok in E by exact LD; rewrite zero_dk_ok, bind_Ok by exact LD; apply EARLY; [discriminate|exact E].
    clear EARLY. rewrite rd_ok in E by lia. rewrite bind_Ok in E.
    assert (sub f 96 (n - 128) = sub m (inp + 96) (n - 128)) as E96 by (unfold f; rewrite sub_sub by lia; reflexivity). rewrite E96 in E.
    destruct (stream_mem_ok (m_aes M) (m_hi M) (firstn 32 dk) 0 0 AES (mk_bufs m (inp + 96) outp (n - 128)) HS) as (AES1 & E1 & E2 & _).
    { unfold usable. cbn [b_in b_out b_len b_mem]. lia. } { cbn [b_len]. lia. }
    unfold input in E1, E2. cbn [b_in b_out b_len b_mem] in E1, E2.
    rewrite E1, bind_Ok in E. rewrite E2, bind_Ok. cbv beta iota in E |- *. clear E1 E2.
    set (pt := aes_ctr (firstn 32 dk) 0 0 (sub m (inp + 96) (n - 128))) in *.
    assert (length pt = (n - 128)%nat) as LP by (unfold pt; rewrite aes_ctr_length; apply sub_length; lia).
    assert (bytes_ok pt) as OPT by (apply aes_ctr_ok; [right; rewrite firstn_length; lia|apply bytes_ok_firstn, OD|apply bytes_ok_sub, HM]).
    clearbody pt.
    apply bind_inv in E. destruct E as (h1 & EH1 & E). rewrite EH1, bind_Ok.
    rewrite wr_ok in E by lia. rewrite bind_Ok in E.
    assert (upd (sub m outp (n - 128)) 0 pt = pt) as EPT by (unfold upd; cbn [firstn app]; rewrite skipn_all2, app_nil_r by lia; reflexivity).
    rewrite EPT in E.
    apply bind_inv in E. destruct E as (h2 & EH2 & E). rewrite EH2, bind_Ok.
    apply bind_inv in E. destruct E as (h3 & EH3 & E). rewrite EH3, bind_Ok.
    assert (rd dk 32 32 = Ok (key_hmac kdf passwd (get_head f))) as EK by (rewrite EDK; apply key_hmac_rd).
    rewrite EK, bind_Ok in E. rewrite EK, bind_Ok.
    assert (bytes_ok (key_hmac kdf passwd (get_head f))) as OK1.
    { rewrite rd_ok in EK by lia. injection EK as <-. apply bytes_ok_sub, OD. }
    set (K := key_hmac kdf passwd (get_head f)) in *. clearbody K.
    rewrite rd_ok in E by lia. rewrite bind_Ok in E. rewrite rd_ok by (rewrite upd_length; lia). rewrite bind_Ok.
    assert (bytes_ok (upd m outp pt)) as OM1 by (unfold upd; apply bytes_ok_app; split; [apply bytes_ok_firstn, HM|apply bytes_ok_app; split; [exact OPT|apply bytes_ok_skipn, HM]]).
    assert (length (upd m outp pt) = length m) as LM1 by (apply upd_length; lia).
    set (m1 := upd m outp pt) in *.
    rewrite hmac_once_ok in E by (auto using bytes_ok_sub). rewrite bind_Ok in E.
    rewrite hmac_once_ok by (auto using bytes_ok_sub). rewrite bind_Ok.
    rewrite rd_ok in E by lia. rewrite bind_Ok in E. rewrite rd_ok by lia. rewrite bind_Ok.
    destruct (verify_prefix (hmac K (sub f 0 (n - 32))) (sub f (n - 32) 32) 32) as (w & EW & HW).
    { apply hmac_ok. } { apply bytes_ok_sub, OF. } { rewrite hmac_length; lia. } { rewrite sub_length; lia. }
    destruct (verify_prefix (hmac K (sub m1 inp (n - 32))) (sub m1 (inp + (n - 32)) 32) 32) as (w1 & EW1 & HW1).
    { apply hmac_ok. } { apply bytes_ok_sub, OM1. } { rewrite hmac_length; lia. } { rewrite sub_length; lia. }
    rewrite EW, bind_Ok in E. rewrite EW1, bind_Ok.
    rewrite (firstn_all2 (hmac _ _)) in HW by (rewrite hmac_length; lia). rewrite (firstn_all2 (sub f _ 32)) in HW by (rewrite sub_length; lia).
    rewrite (firstn_all2 (hmac _ _)) in HW1 by (rewrite hmac_length; lia). rewrite (firstn_all2 (sub m1 _ 32)) in HW1 by (rewrite sub_length; lia).
    rewrite zero_dk_ok, bind_Ok in E by exact LD. injection E as <-. rewrite zero_dk_ok, bind_Ok by exact LD.
    eexists. split; [reflexivity|]. cbn [oc_val oc_rc oc_lib oc_msgs oc_P oc_dk oc_heap fst snd]. fold m1.
    split; [reflexivity|]. split; [exact LP|]. do 5 (split; [reflexivity|]). right. split; [exact H128|].
    rewrite HW, HW1.
    assert (forall a b : bytes, ((if negb (list_eqb a b) then SCRYPT_EINVAL else SCRYPT_OK) = SCRYPT_OK <-> a = b) /\
      ((if negb (list_eqb a b) then SCRYPT_EINVAL else SCRYPT_OK) = SCRYPT_OK \/ (if negb (list_eqb a b) then SCRYPT_EINVAL else SCRYPT_OK) = SCRYPT_EINVAL)) as HB.
    { intros a b. destruct (list_eqb a b) eqn:EAB; cbn [negb].
      - apply list_eqb_spec in EAB. tauto.
      - apply list_eqb_false in EAB. split; [split; [discriminate|contradiction]|auto]. }
    split; [apply HB|]. split; [apply HB|]. split; apply HB.
  Qed.
End Ovl.
