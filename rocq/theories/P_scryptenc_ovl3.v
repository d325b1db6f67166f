(** Proofs about M_scryptenc_ovl: input and output anywhere. *)
From Verif Require Import Base SpecBytes SpecSHA SpecScrypt SpecScryptAPI SpecAES SpecDRBG SpecFormat
  M_endian P_endian M_sha256 P_sha256 M_smix M_aes_hw M_aesctr P_aesctr P_scrypt P_scrypt_ref
  M_scrypt_sel P_scrypt_sel Prop_scrypt M_verify P_verify M_entropy P_entropy M_machine M_double M_memlimit M_cpuperf
  M_humansize M_params M_stdio P_stdio M_scryptenc SpecScryptenc P_scryptenc P_scryptenc2 P_scryptenc3 P_scryptenc4
  M_aesctr_mem P_aesctr_mem P_aesctr_ovl P_aesctr_any M_scryptenc_ovl P_scryptenc_ovl.

Lemma nth_error_out {A} (m d : list A) o x : (o + length d <= length m)%nat -> (x < o \/ o + length d <= x)%nat -> nth_error (upd m o d) x = nth_error m x.
Proof. intros H Hx. rewrite nth_error_upd by exact H. destruct (Nat.ltb_spec x o); [reflexivity|]. destruct (Nat.ltb_spec x (o + length d)); [lia|reflexivity]. Qed.
Lemma sub_same {A} (m m' : list A) o n : length m = length m' -> (o + n <= length m)%nat -> (forall x, (o <= x < o + n)%nat -> nth_error m' x = nth_error m x) -> sub m' o n = sub m o n.
Proof.
  intros HL HB H. apply list_ext. intros k. rewrite !nth_error_sub by lia. destruct (Nat.ltb_spec k n); [apply H; lia|reflexivity].
Qed.
Lemma sub_joined {A} (m : list A) o a b : (o + (a + b) <= length m)%nat -> sub m o (a + b) = sub m o a ++ sub m (o + a) b.
Proof.
  intros H. apply list_ext. intros k. rewrite nth_error_sub by lia. destruct (Nat.ltb_spec k a).
  - rewrite nth_error_app1 by (rewrite sub_length; lia). rewrite nth_error_sub by lia. destruct (Nat.ltb_spec k a); [|lia]. destruct (Nat.ltb_spec k (a + b)); [reflexivity|lia].
  - rewrite nth_error_app2 by (rewrite sub_length; lia). rewrite sub_length by lia. rewrite nth_error_sub by lia.
    destruct (Nat.ltb_spec k (a + b)); destruct (Nat.ltb_spec (k - a) b); try lia; [f_equal; lia|reflexivity].
Qed.

Section Any.
  Context (M : machine) (cfg : clk_cfg).
  Lemma ovl_enc_any lb hp e m inp n outp passwd P verbose force o :
    size_bits (m_szb M) -> xp_ok P -> bytes_ok passwd -> env_bytes (v_ent e) -> drbg_inv (lb_drbg lb) -> heap_ok hp ->
    bytes_ok m -> N.of_nat n < 2 ^ 64 -> (inp + n <= length m)%nat -> (outp + (n + 128) <= length m)%nat ->
    scryptenc_buf M cfg lb hp e (sub m inp n) (sub m outp (n + 128)) passwd P verbose force = Ok o ->
    exists o', ovl_scryptenc_buf M cfg lb hp e m inp n outp passwd P verbose force = Ok o' /\ oc_rc o' = oc_rc o /\
      oc_lib o' = oc_lib o /\ oc_msgs o' = oc_msgs o /\ oc_P o' = oc_P o /\ oc_dk o' = oc_dk o /\ oc_heap o' = oc_heap o /\
      length (oc_val o') = length m /\ bytes_ok (oc_val o') /\
      (forall x, (x < outp \/ outp + (n + 128) <= x)%nat -> nth_error (oc_val o') x = nth_error m x) /\
      (oc_rc o = SCRYPT_OK -> exists h read, fhead_ok h /\ computable M h /\ bytes_ok read /\ length read = n /\
        sub (oc_val o') outp (n + 128) = fmt_file kdf passwd h read /\
        forall k, (k < n)%nat -> nth_error read k = nth_error m (inp + k) \/
          (outp <= inp + k < outp + 96 + k)%nat /\ nth_error read k = nth_error (oc_val o') (inp + k)).
  Proof.
    intros Hs HXP HPW HE HD HH HM Hn HI HO E. unfold scryptenc_buf in E. unfold ovl_scryptenc_buf.
    assert (length (sub m inp n) = n) as LI by (apply sub_length; lia).
    assert (length (sub m outp (n + 128)) = (n + 128)%nat) as LO by (apply sub_length; lia).
    apply bind_inv in E. destruct E as (u & EA & E). rewrite EA, !bind_Ok. clear EA u.
    apply bind_inv in E. destruct E as ([[[[[lb1 ms] P1] hd] dk] rc] & ES & E). rewrite ES, !bind_Ok. cbv beta iota zeta in E |- *.
    eapply scryptenc_setup_inv in ES; auto using scratch_bytes_ok, scratch_bytes_length.
    destruct ES as (_ & LD & _ & _ & _ & HOK).
    destruct (is_ok rc) eqn:EO; cbn [negb] in E |- *.
    2:{ apply is_ok_false in EO. rewrite zero_dk_ok, bind_Ok in E by exact LD. injection E as <-. rewrite zero_dk_ok, bind_Ok by exact LD.
        eexists. split; [reflexivity|]. cbn [oc_val oc_rc oc_lib oc_msgs oc_P oc_dk oc_heap]. do 7 (split; [reflexivity|]).
        split; [exact HM|]. split; [reflexivity|]. intros ER. contradiction. }
    apply is_ok_spec in EO. subst rc. destruct (HOK eq_refl) as (h & d & Hh & Hc & _ & _ & EDK & EHD). clear HOK.
    assert (length hd = 96%nat) as L96 by (rewrite EHD; apply fmt_96_length; apply Hh).
    assert (bytes_ok dk) as OD by (rewrite EDK; apply keys_ok).
    assert (bytes_ok hd) as O96 by (rewrite EHD; apply fmt_96_ok; [destruct Hh; lia|apply Hh]).
    rewrite wr_ok in E by lia. rewrite bind_Ok in E. rewrite wr_ok by lia. rewrite bind_Ok.
    set (out1 := upd (sub m outp (n + 128)) 0 hd) in *. assert (length out1 = (n + 128)%nat) as LO1 by (unfold out1; rewrite upd_length; lia).
    assert (length (upd m outp hd) = length m) as LM1 by (apply upd_length; lia).
    assert (bytes_ok (upd m outp hd)) as OM1 by (apply upd_bytes; assumption).
    destruct (start_aes_cases M e hp dk LD OD HH) as [(K1 & ES)|[(K1 & K2 & ES)|(K1 & K2 & key & AES & ES & HK & HS)]];
      rewrite ES, bind_Ok in E; rewrite ES, bind_Ok; cbv beta iota in E |- *.
    1,2: rewrite zero_dk_ok, bind_Ok in E by exact LD; injection E as <-; rewrite zero_dk_ok, bind_Ok by exact LD;
      (eexists; split; [reflexivity|]); cbn [oc_val oc_rc oc_lib oc_msgs oc_P oc_dk oc_heap]; do 6 (split; [reflexivity|]);
      (split; [exact LM1|]); (split; [exact OM1|]); (split; [|discriminate]); intros x Hx; apply nth_error_out; lia.
    destruct (stream_any_read (m_aes M) (m_hi M) (firstn 32 dk) 0 0 AES (mk_bufs (upd m outp hd) inp (outp + 96) n) (sub m inp n))
      as (x1 & AES1 & read & EX & E1 & LX & LR & OX & OR & HX & EC & HR); cbn [b_in b_out b_len b_mem].
    { right. rewrite firstn_length. lia. } { apply bytes_ok_firstn, OD. } { exact OM1. } { exact HS. } { unfold fits. cbn [b_in b_out b_len b_mem]. lia. } { exact LI. } { lia. }
    cbn [b_in b_out b_len b_mem] in EX, LX, LR, HX, EC, HR. rewrite LM1 in LX.
    rewrite E1, bind_Ok in E. rewrite EX, bind_Ok. cbv beta iota in E |- *. clear E1 EX.
    apply bind_inv in E. destruct E as (h1 & EH1 & E). rewrite EH1, bind_Ok.
    apply bind_inv in E. destruct E as (out2 & EO2 & E).
    apply bind_inv in E. destruct E as (h2 & EH2 & E). rewrite EH2, bind_Ok.
    apply bind_inv in E. destruct E as (h3 & EH3 & E). rewrite EH3, bind_Ok.
    rewrite rd_ok in E by lia. rewrite bind_Ok in E. rewrite rd_ok by lia. rewrite !bind_Ok.
    apply bind_inv in E. destruct E as (y & EY & E). apply bind_inv in E. destruct E as (tag & ET & E).
    apply bind_inv in E. destruct E as (out3 & EW & E).
    rewrite rd_ok by lia. rewrite !bind_Ok.
    rewrite hmac_once_ok by (apply bytes_ok_sub; assumption). rewrite !bind_Ok.
    rewrite wr_ok by (rewrite hmac_length; lia). rewrite !bind_Ok.
    rewrite zero_dk_ok, bind_Ok in E by exact LD. injection E as <-. rewrite zero_dk_ok, !bind_Ok by exact LD.
    eexists. split; [reflexivity|]. cbn [oc_rc oc_lib oc_msgs oc_P oc_dk oc_heap oc_val].
    do 6 (split; [reflexivity|]).
    set (tag1 := hmac (sub dk 32 32) (sub x1 outp (96 + n))). assert (length tag1 = 32%nat) as LT1 by apply hmac_length.
    assert (bytes_ok tag1) as OT1 by apply hmac_ok.
    split; [rewrite upd_length; lia|]. split; [apply upd_bytes; assumption|]. split.
    { intros x Hx. rewrite nth_error_out by lia. rewrite HX by lia. apply nth_error_out; lia. }
    intros _. exists h, read. split; [exact Hh|]. split; [exact Hc|]. split; [exact OR|]. split; [exact LR|].
    assert (sub x1 outp 96 = hd) as EX96.
    { rewrite (sub_same (upd m outp hd) x1 outp 96) by (try lia; intros x Hx; apply HX; lia).
      pose proof (sub_upd_in m hd outp 0 96 ltac:(lia) ltac:(lia)) as ES96. rewrite Nat.add_0_r in ES96. rewrite ES96.
      unfold sub. cbn [skipn]. apply firstn_all2. lia. }
    assert (firstn 32 dk = key_enc kdf passwd h) as EK1 by (rewrite EDK; reflexivity).
    assert (sub dk 32 32 = key_hmac kdf passwd h) as EK2.
    { rewrite EDK. unfold sub, key_hmac. apply firstn_all2. rewrite skipn_length, keys_length. lia. }
    split.
    - replace (n + 128)%nat with ((96 + n) + 32)%nat by lia. replace (outp + 96 + n)%nat with (outp + (96 + n))%nat by lia.
      rewrite (sub_joined (upd x1 (outp + (96 + n)) tag1)) by (rewrite upd_length; lia).
      rewrite (sub_upd_out x1 tag1 (outp + (96 + n)) outp (96 + n)) by lia.
      pose proof (sub_upd_in x1 tag1 (outp + (96 + n)) 0 32 ltac:(lia) ltac:(lia)) as EF. rewrite Nat.add_0_r in EF. rewrite EF.
      assert (sub tag1 0 32 = tag1) as -> by (unfold sub; cbn [skipn]; apply firstn_all2; lia).
      unfold tag1. rewrite (sub_joined x1 outp 96 n) by lia. rewrite EX96, EC, EK1, EK2, EHD. reflexivity.
    - intros k Hk. destruct (HR k Hk) as [EV|[HB EV]]; rewrite EV.
      + destruct (Nat.ltb_spec (inp + k) outp) as [Ha|Ha]; [left; apply nth_error_out; lia|].
        destruct (Nat.ltb_spec (inp + k) (outp + 96)) as [Hb|Hb]; [|left; apply nth_error_out; lia].
        right. split; [lia|]. rewrite (nth_error_out x1 tag1) by lia. symmetry. apply HX. lia.
      + right. split; [lia|]. symmetry. apply nth_error_out; lia.
  Qed.
  Lemma ovl_dec_any lb hp e m inp n outp outlen passwd P verbose force o :
    size_bits (m_szb M) -> bytes_ok passwd -> heap_ok hp ->
    bytes_ok m -> N.of_nat n < 2 ^ 64 -> (inp + n <= length m)%nat -> (outp + (n - 128) <= length m)%nat ->
    let f := sub m inp n in
    scryptdec_buf M cfg lb hp e f (sub m outp (n - 128)) outlen passwd P verbose force = Ok o ->
    exists o', ovl_scryptdec_buf M cfg lb hp e m inp n outp outlen passwd P verbose force = Ok o' /\
      oc_lib o' = oc_lib o /\ oc_msgs o' = oc_msgs o /\ oc_P o' = oc_P o /\ oc_dk o' = oc_dk o /\ oc_heap o' = oc_heap o /\
      snd (oc_val o') = snd (oc_val o) /\
      ((oc_rc o' = oc_rc o /\ oc_rc o <> SCRYPT_OK /\ fst (oc_val o') = m) \/
       ((128 <= n)%nat /\ (oc_rc o = SCRYPT_OK \/ oc_rc o = SCRYPT_EINVAL) /\ (oc_rc o' = SCRYPT_OK \/ oc_rc o' = SCRYPT_EINVAL) /\
        length (fst (oc_val o')) = length m /\ bytes_ok (fst (oc_val o')) /\
        (forall x, (x < outp \/ outp + (n - 128) <= x)%nat -> nth_error (fst (oc_val o')) x = nth_error m x) /\
        (oc_rc o' = SCRYPT_OK <-> hmac (key_hmac kdf passwd (get_head f)) (sub (fst (oc_val o')) inp (n - 32)) = sub (fst (oc_val o')) (inp + (n - 32)) 32) /\
        exists read, length read = (n - 128)%nat /\ bytes_ok read /\
          sub (fst (oc_val o')) outp (n - 128) = aes_ctr (key_enc kdf passwd (get_head f)) 0 0 read /\
          forall k, (k < n - 128)%nat -> nth_error read k = nth_error m (inp + 96 + k) \/
            (outp <= inp + 96 + k < outp + k)%nat /\ nth_error read k = nth_error (fst (oc_val o')) (inp + 96 + k))).
  Proof.
    intros Hs HPW HH HM Hn HI HO f E. unfold scryptdec_buf in E. unfold ovl_scryptdec_buf.
    assert (length f = n) as LI by (apply sub_length; lia). rewrite LI in E.
    assert (bytes_ok f) as OF by (apply bytes_ok_sub, HM).
    assert (length (sub m outp (n - 128)) = (n - 128)%nat) as LO by (apply sub_length; lia).
    apply bind_inv in E. destruct E as (u & EA & E). rewrite EA, bind_Ok. clear EA u. cbv zeta in E |- *.
    assert (forall c lb1 ms P1 dk hp1, c <> SCRYPT_OK -> Ok (mk_oc c lb1 ms P1 dk hp1 (sub m outp (n - 128), outlen)) = Ok o ->
      exists o', Ok (mk_oc c lb1 ms P1 dk hp1 (m, outlen)) = Ok o' /\ oc_lib o' = oc_lib o /\ oc_msgs o' = oc_msgs o /\ oc_P o' = oc_P o /\ oc_dk o' = oc_dk o /\ oc_heap o' = oc_heap o /\
      snd (oc_val o') = snd (oc_val o) /\
      ((oc_rc o' = oc_rc o /\ oc_rc o <> SCRYPT_OK /\ fst (oc_val o') = m) \/
       ((128 <= n)%nat /\ (oc_rc o = SCRYPT_OK \/ oc_rc o = SCRYPT_EINVAL) /\ (oc_rc o' = SCRYPT_OK \/ oc_rc o' = SCRYPT_EINVAL) /\
        length (fst (oc_val o')) = length m /\ bytes_ok (fst (oc_val o')) /\
        (forall x, (x < outp \/ outp + (n - 128) <= x)%nat -> nth_error (fst (oc_val o')) x = nth_error m x) /\
        (oc_rc o' = SCRYPT_OK <-> hmac (key_hmac kdf passwd (get_head f)) (sub (fst (oc_val o')) inp (n - 32)) = sub (fst (oc_val o')) (inp + (n - 32)) 32) /\
        exists read, length read = (n - 128)%nat /\ bytes_ok read /\
          sub (fst (oc_val o')) outp (n - 128) = aes_ctr (key_enc kdf passwd (get_head f)) 0 0 read /\
          forall k, (k < n - 128)%nat -> nth_error read k = nth_error m (inp + 96 + k) \/
            (outp <= inp + 96 + k < outp + k)%nat /\ nth_error read k = nth_error (fst (oc_val o')) (inp + 96 + k)))) as EARLY.
    { intros c lb1 ms P1 dk hp1 HC EQ. injection EQ as <-. eexists. split; [reflexivity|].
      cbn [oc_val oc_rc oc_lib oc_msgs oc_P oc_dk oc_heap fst snd]. do 6 (split; [reflexivity|]). left. auto. }
    destruct (Nat.ltb_spec n 7) as [H7|H7]; [apply EARLY; [discriminate|exact E]|].
    rewrite rd_ok in E by lia. rewrite bind_Ok in E. rewrite rd_ok by lia. rewrite bind_Ok.
    assert (sub f 0 6 = sub m inp 6) as E6 by (unfold f; rewrite sub_sub by lia; f_equal; lia). rewrite E6 in E.
    destruct (list_eqb (sub m inp 6) magic); cbn [negb] in E |- *; [|apply EARLY; [discriminate|exact E]].
    rewrite rd_ok in E by lia. rewrite bind_Ok in E. rewrite rd_ok by lia. rewrite bind_Ok.
    assert (sub f 6 1 = sub m (inp + 6) 1) as E7 by (unfold f; rewrite sub_sub by lia; reflexivity). rewrite E7 in E.
    destruct (sel (sub m (inp + 6) 1) 0 =? 0); cbn [negb] in E |- *; [|apply EARLY; [discriminate|exact E]].
    destruct (Nat.ltb_spec n 128) as [H128|H128]; [apply EARLY; [discriminate|exact E]|].
    rewrite rd_ok by lia. rewrite bind_Ok. fold f.
    apply bind_inv in E. destruct E as ([[[[lb1 ms] P1] dk] rc] & ES & E). rewrite ES, bind_Ok. cbv beta iota zeta in E |- *.
    eapply scryptdec_setup_inv in ES; auto using scratch_bytes_ok, scratch_bytes_length; [|lia].
    destruct ES as (_ & LD & _ & RES).
    destruct (is_ok rc) eqn:EO; cbn [negb] in E |- *.
    2:{ apply is_ok_false in EO. rewrite zero_dk_ok, bind_Ok in E by exact LD. rewrite zero_dk_ok, bind_Ok by exact LD. apply EARLY; assumption. }
    apply is_ok_spec in EO. subst rc.
    assert (dk = fmt_keys kdf passwd (get_head f)) as EDK by (inversion RES; [contradiction|reflexivity]). clear RES.
    assert (bytes_ok dk) as OD by (rewrite EDK; apply keys_ok).
    destruct (start_aes_cases M e hp dk LD OD HH) as [(K1 & ES)|[(K1 & K2 & ES)|(K1 & K2 & key & AES & ES & HK & HS)]];
      rewrite ES, bind_Ok in E; rewrite ES, bind_Ok; cbv beta iota in E |- *.
    1,2: rewrite zero_dk_ok, bind_Ok in E by exact LD; rewrite zero_dk_ok, bind_Ok by exact LD; apply EARLY; [discriminate|exact E].
    clear EARLY. rewrite rd_ok in E by lia. rewrite bind_Ok in E.
    assert (sub f 96 (n - 128) = sub m (inp + 96) (n - 128)) as E96 by (unfold f; rewrite sub_sub by lia; reflexivity). rewrite E96 in E.
    destruct (stream_any_read (m_aes M) (m_hi M) (firstn 32 dk) 0 0 AES (mk_bufs m (inp + 96) outp (n - 128)) (sub m (inp + 96) (n - 128)))
      as (m1 & AES1 & read & E2 & E1 & LM1 & LR & OM1 & OR & HX & EC & HR); cbn [b_in b_out b_len b_mem].
    { right. rewrite firstn_length. lia. } { apply bytes_ok_firstn, OD. } { exact HM. } { exact HS. } { unfold fits. cbn [b_in b_out b_len b_mem]. lia. } { apply sub_length. lia. } { lia. }
    cbn [b_in b_out b_len b_mem] in E2, LM1, LR, HX, EC, HR.
    rewrite E1, bind_Ok in E. rewrite E2, bind_Ok. cbv beta iota in E |- *. clear E1 E2.
    set (pt := aes_ctr (firstn 32 dk) 0 0 (sub m (inp + 96) (n - 128))) in *.
    assert (length pt = (n - 128)%nat) as LP by (unfold pt; rewrite aes_ctr_length; apply sub_length; lia).
    clearbody pt.
    apply bind_inv in E. destruct E as (h1 & EH1 & E). rewrite EH1, bind_Ok.
    rewrite wr_ok in E by lia. rewrite bind_Ok in E.
    assert (upd (sub m outp (n - 128)) 0 pt = pt) as EPT by (unfold upd; cbn [firstn app]; rewrite skipn_all2, app_nil_r by lia; reflexivity).
    rewrite EPT in E.
    apply bind_inv in E. destruct E as (h2 & EH2 & E). rewrite EH2, bind_Ok.
    apply bind_inv in E. destruct E as (h3 & EH3 & E). rewrite EH3, bind_Ok.
    assert (rd dk 32 32 = Ok (key_hmac kdf passwd (get_head f))) as EK by (rewrite EDK; apply key_hmac_rd).
    rewrite EK, bind_Ok in E. rewrite EK, bind_Ok.
    assert (firstn 32 dk = key_enc kdf passwd (get_head f)) as EKE by (rewrite EDK; reflexivity). rewrite EKE in EC.
    assert (bytes_ok (key_hmac kdf passwd (get_head f))) as OK1.
    { rewrite rd_ok in EK by lia. injection EK as <-. apply bytes_ok_sub, OD. }
    set (K := key_hmac kdf passwd (get_head f)) in *. clearbody K.
    rewrite rd_ok in E by lia. rewrite bind_Ok in E. rewrite rd_ok by lia. rewrite bind_Ok.
    rewrite hmac_once_ok in E by (auto using bytes_ok_sub). rewrite bind_Ok in E.
    rewrite hmac_once_ok by (auto using bytes_ok_sub). rewrite bind_Ok.
    rewrite rd_ok in E by lia. rewrite bind_Ok in E. rewrite rd_ok by lia. rewrite bind_Ok.
    destruct (verify_prefix (hmac K (sub f 0 (n - 32))) (sub f (n - 32) 32) 32) as (w & EW & HW).
    { apply hmac_ok. } { apply bytes_ok_sub, OF. } { rewrite hmac_length; lia. } { rewrite sub_length; lia. }
    destruct (verify_prefix (hmac K (sub m1 inp (n - 32))) (sub m1 (inp + (n - 32)) 32) 32) as (w1 & EW1 & HW1).
    { apply hmac_ok. } { apply bytes_ok_sub, OM1. } { rewrite hmac_length; lia. } { rewrite sub_length; lia. }
    rewrite EW, bind_Ok in E. rewrite EW1, bind_Ok.
    rewrite (firstn_all2 (hmac _ _)) in HW by (rewrite hmac_length; lia). rewrite (firstn_all2 (sub f _ 32)) in HW by (rewrite sub_length; lia).
    rewrite (firstn_all2 (hmac _ _)) in HW1 by (rewrite hmac_length; lia). rewrite (firstn_all2 (sub m1 _ 32)) in HW1 by (rewrite sub_length; lia).
    rewrite zero_dk_ok, bind_Ok in E by exact LD. injection E as <-. rewrite zero_dk_ok, bind_Ok by exact LD.
    eexists. split; [reflexivity|]. cbn [oc_val oc_rc oc_lib oc_msgs oc_P oc_dk oc_heap fst snd].
    do 6 (split; [reflexivity|]). right. split; [exact H128|].
    rewrite HW, HW1.
    assert (forall a b : bytes, ((if negb (list_eqb a b) then SCRYPT_EINVAL else SCRYPT_OK) = SCRYPT_OK <-> a = b) /\
      ((if negb (list_eqb a b) then SCRYPT_EINVAL else SCRYPT_OK) = SCRYPT_OK \/ (if negb (list_eqb a b) then SCRYPT_EINVAL else SCRYPT_OK) = SCRYPT_EINVAL)) as HB.
    { intros a b. destruct (list_eqb a b) eqn:EAB; cbn [negb].
      - apply list_eqb_spec in EAB. tauto.
      - apply list_eqb_false in EAB. split; [split; [discriminate|contradiction]|auto]. }
    split; [apply HB|]. split; [apply HB|]. split; [exact LM1|]. split; [exact OM1|]. split; [exact HX|]. split; [apply HB|].
    exists read. split; [exact LR|]. split; [exact OR|]. split; [exact EC|exact HR].
  Qed.
End Any.
