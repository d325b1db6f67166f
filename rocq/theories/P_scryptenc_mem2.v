(** Proofs about M_scryptenc_mem: the functions that work on streams. *)
From Verif Require Import Base SpecBytes SpecSHA SpecScrypt SpecScryptAPI SpecAES SpecDRBG SpecFormat SpecStream
  M_endian P_endian P_sha256_tr M_sha256_tr M_simd M_sha256_hw M_sha256 P_sha256 M_memzero P_memzero M_smix M_aes_hw M_aesctr P_aesctr P_scrypt P_scrypt_ref
  M_scrypt_sel P_scrypt_sel Prop_scrypt M_verify P_verify M_entropy P_entropy M_machine M_double M_memlimit M_cpuperf
  M_humansize M_params M_stdio P_stdio M_scryptenc SpecScryptenc P_scryptenc P_scryptenc2 P_scryptenc3 P_scryptenc4 P_scryptenc8 P_scryptenc9
  M_sha256_mem P_sha256_mem Prop_sha256_mem M_entropy_mem P_entropy_mem M_scryptenc_mem P_scryptenc_mem.
Local Opaque ENCBLOCK.

(** Memory of the declared sizes ([n]: that of the buffer). *)
Definition ff_ok (n : nat) (f : file_frame) : Prop :=
  length (ff_buf f) = n /\ length (ff_hbuf f) = 32%nat /\ length (ff_header f) = 96%nat /\ any_hmac (ff_hctx f).

(** The comparison depends on the bytes compared only. *)
Lemma rd_firstn {A} (b : list A) i n k : (i + n <= k)%nat -> (k <= length b)%nat -> rd b i n = rd (firstn k b) i n.
Proof.
  intros H1 H2. rewrite !rd_ok by (rewrite ?firstn_length; lia). f_equal. unfold sub.
  rewrite skipn_firstn_comm, firstn_firstn. f_equal. lia.
Qed.
Lemma verify_loop_firstn n : forall i a b b' rc k, (i + n <= k)%nat -> (k <= length b)%nat -> (k <= length b')%nat ->
  firstn k b = firstn k b' -> verify_loop n i a b rc = verify_loop n i a b' rc.
Proof.
  induction n as [|n IH]; intros i a b b' rc k H1 H2 H3 H4; [reflexivity|]. cbn [verify_loop].
  rewrite (rd_firstn b i 1 k), (rd_firstn b' i 1 k), H4 by lia.
  destruct (rd a i 1); [|reflexivity|reflexivity]. rewrite !bind_Ok. destruct (rd (firstn k b') i 1); [|reflexivity|reflexivity]. rewrite !bind_Ok.
  apply (IH (S i) _ _ _ _ k); (lia || assumption).
Qed.

Section Mem2.
  Context (M : machine) (cfg : clk_cfg) (leave : list N -> bytes -> list N -> list N) (HL : in_bounds leave)
    (junk : nat -> nat -> N).
  Notation hw := (shw M).

  (** The memory of scryptenc_file when it gave [o]. *)
  Definition enc_file_left (fo : outstream) (f f' : file_frame) (sf sf' : setup_frame) (o : outcome (instream * outstream)) : Prop :=
    (oc_rc o <> SCRYPT_OK /\ f' = f /\ idle sf sf' /\ snd (oc_val o) = fo) \/
    (exists hd cs tag, spent hd sf' /\ length hd = 96%nat /\
       Forall (fun c => (0 < length c <= ENCBLOCK)%nat) cs /\ prefix (o_data (snd (oc_val o))) (o_data fo ++ hd ++ concat cs ++ tag) /\
       ff_header f' = hd /\ ff_buf f' = overlay (ff_buf f) cs /\
       ((oc_rc o <> SCRYPT_OK /\ ff_hbuf f' = ff_hbuf f) \/
        (ff_hbuf f' = tag /\ blank_hmac (ff_hctx f') /\ (oc_rc o = SCRYPT_OK -> o_data (snd (oc_val o)) = o_data fo ++ hd ++ concat cs ++ tag)))).

  Lemma mem_enc_file_ok lb hp e fi fo passwd P verbose force f sf l o :
    size_bits (m_szb M) -> xp_ok P -> bytes_ok passwd -> env_bytes (v_ent e) -> drbg_inv (lb_drbg lb) -> heap_ok hp ->
    input_ok fi -> N.of_nat (length (stream_data (no_errors fi))) < 2 ^ 64 -> ff_ok ENCBLOCK f -> sf_ok sf ->
    scryptenc_file M cfg lb hp e fi fo passwd P verbose force = Ok o ->
    exists f' sf' l', mem_scryptenc_file M cfg leave junk lb hp e fi fo passwd P verbose force f sf l = Ok (o, f', sf', l') /\
      adds clear l l' /\ oc_dk o = repeat 0 64 /\ enc_file_left fo f f' sf sf' o.
  Proof.
    intros Hs HXP HPW HE HD HH HIO HLE (G1 & G2 & G3 & G4) HF E. unfold scryptenc_file in E. unfold mem_scryptenc_file.
    apply bind_inv in E. destruct E as (u & EA & E). rewrite EA, bind_Ok. clear EA u.
    apply bind_inv in E. destruct E as ([[[[[lb1 ms] P1] hd] dk] rc] & ES & E).
    assert (length dk = 64%nat) as LD.
    { eapply scryptenc_setup_inv in ES; auto using scratch_bytes_ok, scratch_bytes_length. apply ES. }
    eapply (mem_enc_setup_ok M cfg leave HL junk _ _ _ _ (ff_header f) _ _ _ _ sf l) in ES; auto using scratch_bytes_ok, scratch_bytes_length.
    destruct ES as (hd' & sf1 & l1 & -> & A1 & S1 & S2). rewrite bind_Ok. cbv beta iota zeta in E |- *.
    destruct (is_ok rc) eqn:EO; cbn [negb] in E |- *.
    2:{ apply is_ok_false in EO. destruct (S1 EO) as (-> & I1 & I2 & I3 & _).
        rewrite zero_dk_ok, bind_Ok in E by exact LD. injection E as <-. rewrite zero_dk_ok, bind_Ok by exact LD.
        do 3 eexists. split; [reflexivity|]. split; [exact A1|]. split; [reflexivity|]. left. cbn [oc_rc].
        split; [exact EO|]. split; [destruct f; reflexivity|]. split; [|reflexivity]. split; [exact I1|]. split; assumption. }
    apply is_ok_spec in EO. subst rc. destruct (S2 eq_refl) as (-> & L96 & O96 & OD & T1 & T2 & T3 & T4). clear S1 S2.
    assert (spent hd sf1) as SP by (unfold spent; auto).
    rewrite (rd_ok dk 32 32) in E by lia. rewrite bind_Ok in E. rewrite (rd_ok dk 32 32) by lia. rewrite bind_Ok.
    assert (bytes_ok (sub dk 32 32)) as OK2 by (apply bytes_ok_sub, OD).
    set (K := sub dk 32 32) in *. clearbody K. cbn [ff_buf ff_hbuf ff_header ff_hctx].
    destruct (hmac_junk_init hw (jk M) K OK2) as (c1 & EI & H1).
    rewrite EI, bind_Ok in E. clear EI.
    destruct (HMAC_Update_correct hw (jk M) c1 K [] hd H1 O96) as (c2 & EI & H2). rewrite EI, bind_Ok in E. clear EI.
    destruct (call_Init_ok M leave HL junk (ff_hctx f) K l1 G4 OK2) as (d1 & l2 & -> & J1 & A2). rewrite bind_Ok. cbv beta iota.
    destruct (call_Update_ok M leave HL junk d1 K [] hd l2 J1 O96) as (d2 & l3 & -> & J2 & A3). rewrite bind_Ok. cbv beta iota.
    rewrite app_nil_l in H2, J2.
    assert (adds clear l l3) as AL by eauto using adds_trans. clear A1 A2 A3 H1 J1 c1 d1 l1 l2.
    destruct (fwrite hd fo) as [ok fo1] eqn:EW.
    apply fwrite_cases in EW. destruct EW as [(-> & W1 & W2)|(-> & W1 & k & W2 & W3)]; cbn [negb] in E |- *.
    2:{ rewrite zero_dk_ok, bind_Ok in E by exact LD. injection E as <-. rewrite zero_dk_ok, bind_Ok by exact LD.
        do 3 eexists. split; [reflexivity|]. split; [exact AL|]. split; [reflexivity|]. right. exists hd, [], []. cbn [oc_rc oc_val snd ff_buf ff_hbuf ff_header ff_hctx concat app].
        split; [exact SP|]. split; [exact L96|]. split; [constructor|]. split; [rewrite W3, app_nil_r; apply prefix_cons_app, prefix_firstn|].
        split; [reflexivity|]. split; [reflexivity|]. left. split; [discriminate|reflexivity]. }
    destruct (start_aes_cases M e hp dk LD OD HH) as [(K1 & ES)|[(K1 & K2 & ES)|(K1 & K2 & key & AES & ES & HK & HS)]];
      rewrite ES, bind_Ok in E; rewrite ES, bind_Ok; cbv beta iota in E |- *.
    1,2: rewrite zero_dk_ok, bind_Ok in E by exact LD; injection E as <-; rewrite zero_dk_ok, bind_Ok by exact LD;
      do 3 eexists; split; [reflexivity|]; split; [exact AL|]; split; [reflexivity|]; right; exists hd, [], []; cbn [oc_rc oc_val snd ff_buf ff_hbuf ff_header ff_hctx concat app];
      split; [exact SP|]; split; [exact L96|]; split; [constructor|]; split; [rewrite W1, app_nil_r; apply prefix_refl|];
      split; [reflexivity|]; split; [reflexivity|]; left; split; [discriminate|reflexivity].
    apply bind_inv in E. destruct E as ([[[[eof AES1] c3] fi1] fo2] & EL & E).
    assert (bytes_ok (firstn 32 dk)) as OK1 by (apply bytes_ok_firstn, OD).
    assert (length (firstn 32 dk) = 16 \/ length (firstn 32 dk) = 32)%nat as LK1 by (rewrite firstn_length; lia).
    destruct (mem_enc_loop_ok M leave HL junk K (firstn 32 dk) (in_size fi) AES c2 d2 (ff_buf f) fi fo1 hd 0 l3 _ _ _ _ _ OK1 LK1 HS H2 J2 HIO G1 ltac:(lia) EL)
      as (d3 & cs & l4 & -> & A4 & J3 & H3 & LCS & (data & PD & CD) & (w & OW & PW) & ODT).
    assert (adds clear l l4) as AL4 by eauto using adds_trans. clear A4 AL l3.
    rewrite bind_Ok. cbv beta iota zeta in E |- *. cbn [ff_buf ff_hbuf ff_header ff_hctx].
    apply bind_inv in E. destruct E as (h1 & EH1 & E). rewrite EH1, bind_Ok.

    assert (LH : length (ff_hbuf f) = 32%nat) by exact G2.
    destruct eof; cbn [negb] in E |- *.
    2:{ apply bind_inv in E. destruct E as (h2 & EH2 & E). rewrite EH2, bind_Ok.
        rewrite zero_dk_ok, bind_Ok in E by exact LD. injection E as <-. rewrite zero_dk_ok, bind_Ok by exact LD.
        do 3 eexists. split; [reflexivity|]. split; [exact AL4|]. split; [reflexivity|]. right. exists hd, cs, [].
        cbn [oc_rc oc_val snd ff_buf ff_hbuf ff_header ff_hctx]. split; [exact SP|]. split; [exact L96|]. split; [exact LCS|].
        split. { rewrite OW, W1, app_nil_r, <- app_assoc. do 2 apply prefix_cons_app. exact PW. }
        split; [reflexivity|]. split; [reflexivity|]. left. split; [discriminate|reflexivity]. }
    apply bind_inv in E. destruct E as (h2 & EH2 & E). rewrite EH2, bind_Ok.
    apply bind_inv in E. destruct E as (h3 & EH3 & E). rewrite EH3, bind_Ok.
    specialize (ODT eq_refl).
    destruct (ferror fi1).
    { rewrite zero_dk_ok, bind_Ok in E by exact LD. injection E as <-. rewrite zero_dk_ok, bind_Ok by exact LD.
      do 3 eexists. split; [reflexivity|]. split; [exact AL4|]. split; [reflexivity|]. right. exists hd, cs, [].
      cbn [oc_rc oc_val snd ff_buf ff_hbuf ff_header ff_hctx]. split; [exact SP|]. split; [exact L96|]. split; [exact LCS|].
      split. { rewrite ODT, W1, app_nil_r, <- app_assoc. apply prefix_refl. }
      split; [reflexivity|]. split; [reflexivity|]. left. split; [discriminate|reflexivity]. }
    rewrite (HMAC_Final_correct hw (jk M) c3 K _ H3), bind_Ok in E. cbv beta iota in E.
    destruct (call_Final_ok M leave HL junk (ff_hbuf f) d3 K _ l4 J3 LH) as (d4 & l5 & -> & B4 & A5). rewrite bind_Ok. cbv beta iota zeta.
    set (tag := hmac K (hd ++ concat cs)) in *. assert (length tag = 32%nat) as LT by apply hmac_length. clearbody tag.
    rewrite (rd_all tag) by exact LT. rewrite bind_Ok.
    destruct (fwrite tag fo2) as [ok fo3] eqn:EW.
    rewrite zero_dk_ok, bind_Ok in E by exact LD. injection E as <-. rewrite zero_dk_ok, bind_Ok by exact LD.
    do 3 eexists. split; [reflexivity|]. split; [eauto using adds_trans|]. split; [reflexivity|]. right. exists hd, cs, tag.
    cbn [oc_rc oc_val snd ff_buf ff_hbuf ff_header ff_hctx]. split; [exact SP|]. split; [exact L96|]. split; [exact LCS|].
    apply fwrite_cases in EW. destruct EW as [(-> & V1 & V2)|(-> & V1 & k & V2 & V3)].
    - assert (o_data fo3 = o_data fo ++ hd ++ concat cs ++ tag) as EQ by (rewrite V1, ODT, W1, <- !app_assoc; reflexivity).
      rewrite EQ. split; [apply prefix_refl|]. split; [reflexivity|]. split; [reflexivity|]. right. auto.
    - split; [rewrite V3, ODT, W1, <- !app_assoc; do 3 apply prefix_cons_app; apply prefix_firstn|].
      split; [reflexivity|]. split; [reflexivity|]. right. split; [reflexivity|]. split; [exact B4|discriminate].
  Qed.

  (** The memory of scryptdec_file_copy when it returned [rc]. *)
  Definition dec_file_left (n : nat) (fi : instream) (rc : rcode) (f f' : file_frame) : Prop :=
    length (ff_buf f') = length (ff_buf f) /\ ff_header f' = ff_header f /\
    ((rc <> SCRYPT_OK /\ ff_hbuf f' = ff_hbuf f) \/
     ((n + 32 <= length (stream_data fi))%nat /\ (rc = SCRYPT_OK \/ rc = SCRYPT_EINVAL) /\ blank_hmac (ff_hctx f') /\ length (ff_hbuf f') = 32%nat /\
      (rc = SCRYPT_OK <-> ff_hbuf f' = skipn (length (stream_data fi) - 32) (stream_data fi)))).

  Lemma mem_dec_copy_ok hp e C fi fo f l rc fi' fo' hp' :
    heap_ok hp -> length (ck_dk C) = 64%nat -> bytes_ok (ck_dk C) -> bytes_ok (ck_header C) ->
    input_ok fi -> N.of_nat (length (stream_data (no_errors fi))) < 2 ^ 64 -> ff_ok (ENCBLOCK + 32) f ->
    scryptdec_file_copy M hp e (Some C) fi fo = Ok (rc, fi', fo', hp') ->
    exists f' l', mem_scryptdec_file_copy M leave junk hp e (Some C) fi fo f l = Ok (rc, fi', fo', hp', f', l') /\
      adds clear l l' /\ dec_file_left 0 fi rc f f'.
  Proof.
    intros HH LD OD OH HIO HLE (G1 & G2 & G3 & G4) E. unfold scryptdec_file_copy in E. unfold mem_scryptdec_file_copy.
    set (dk := ck_dk C) in *. clearbody dk. set (hd := ck_header C) in *. clearbody hd.
    rewrite (rd_ok dk 32 32) in E by lia. rewrite bind_Ok in E. rewrite (rd_ok dk 32 32) by lia. rewrite bind_Ok.
    assert (bytes_ok (sub dk 32 32)) as OK2 by (apply bytes_ok_sub, OD).
    set (K := sub dk 32 32) in *. clearbody K.
    destruct (hmac_junk_init hw (jk M) K OK2) as (c1 & EI & H1). rewrite EI, bind_Ok in E. clear EI.
    destruct (HMAC_Update_correct hw (jk M) c1 K [] hd H1 OH) as (c2 & EI & H2). rewrite EI, bind_Ok in E. clear EI.
    destruct (call_Init_ok M leave HL junk (ff_hctx f) K l G4 OK2) as (d1 & l2 & -> & J1 & A2). rewrite bind_Ok. cbv beta iota.
    destruct (call_Update_ok M leave HL junk d1 K [] hd l2 J1 OH) as (d2 & l3 & -> & J2 & A3). rewrite bind_Ok. cbv beta iota zeta.
    rewrite app_nil_l in H2, J2. cbn [ff_buf ff_hbuf ff_header ff_hctx].
    assert (adds clear l l3) as AL by eauto using adds_trans. clear A2 A3 H1 J1 c1 d1 l2.
    destruct (start_aes_cases M e hp dk LD OD HH) as [(K1 & ES)|[(K1 & K2 & ES)|(K1 & K2 & key & AES & ES & HK & HS)]];
      rewrite ES, bind_Ok in E; rewrite ES, bind_Ok; cbv beta iota in E |- *.
    1,2: injection E as <- <- <- <-; do 2 eexists; split; [reflexivity|]; split; [exact AL|]; unfold dec_file_left; cbn [ff_buf ff_hbuf ff_header ff_hctx];
      split; [reflexivity|]; split; [reflexivity|]; left; split; [discriminate|reflexivity].
    apply bind_inv in E. destruct E as ([[[[[eof AES1] c3] b3] fi1] fo2] & EL & E).
    assert (bytes_ok (firstn 32 dk)) as OK1 by (apply bytes_ok_firstn, OD).
    assert (length (firstn 32 dk) = 16 \/ length (firstn 32 dk) = 32)%nat as LK1 by (rewrite firstn_length; lia).
    destruct (dec_loop_ok M K (firstn 32 dk) (in_size fi) AES c2 [] fi fo hd 0 OK1 LK1 HS H2 HIO ltac:(constructor) ltac:(cbn; lia) ltac:(cbn [length]; lia) ltac:(lia))
      as (eof0 & AES0 & c0 & b0 & fi0 & fo0 & ct0 & hold & w0 & EL0 & _ & _ & _ & _ & LHO & _ & HEOF & _).
    rewrite EL in EL0. assert (eof0 = eof /\ b0 = b3 /\ fi0 = fi1) as (-> & -> & ->) by (repeat split; congruence). clear EL0.
    destruct (mem_dec_loop_ok M leave HL junk K (firstn 32 dk) (in_size fi) AES c2 d2 (ff_buf f) [] fi fo hd 0 l3 _ _ _ _ _ _
        OK1 LK1 HS H2 J2 HIO G1 eq_refl ltac:(constructor) ltac:(cbn; lia) ltac:(cbn [length]; lia) EL)
      as (d3 & b2 & l4 & ct & EM & A4 & J3 & H3 & LB2 & OB3 & FB). cbn [length] in EM. rewrite EM, bind_Ok. clear EM.
    assert (adds clear l l4) as AL4 by eauto using adds_trans. clear A4 AL l3.
    cbv beta iota zeta in E |- *. cbn [ff_buf ff_hbuf ff_header ff_hctx].
    apply bind_inv in E. destruct E as (h1 & EH1 & E). rewrite EH1, bind_Ok.
    assert (length b2 = length (ff_buf f)) as LBF by congruence.
    destruct eof; cbn [negb] in E |- *.
    2:{ apply bind_inv in E. destruct E as (h2 & EH2 & E). rewrite EH2, bind_Ok. injection E as <- <- <- <-.
        do 2 eexists. split; [reflexivity|]. split; [exact AL4|]. unfold dec_file_left. cbn [ff_buf ff_hbuf ff_header ff_hctx].
        split; [exact LBF|]. split; [reflexivity|]. left. split; [discriminate|reflexivity]. }
    apply bind_inv in E. destruct E as (h2 & EH2 & E). rewrite EH2, bind_Ok.
    apply bind_inv in E. destruct E as (h3 & EH3 & E). rewrite EH3, bind_Ok.
    specialize (FB eq_refl). destruct (HEOF eq_refl) as (-> & _ & _ & _ & HIE & HSD).
    destruct (ferror fi1) eqn:EFE.
    { injection E as <- <- <- <-.
      do 2 eexists. split; [reflexivity|]. split; [exact AL4|]. unfold dec_file_left. cbn [ff_buf ff_hbuf ff_header ff_hctx].
      split; [exact LBF|]. split; [reflexivity|]. left. split; [discriminate|reflexivity]. }
    destruct (Nat.ltb_spec (length hold) 32) as [H32|H32].
    { injection E as <- <- <- <-.
      do 2 eexists. split; [reflexivity|]. split; [exact AL4|]. unfold dec_file_left. cbn [ff_buf ff_hbuf ff_header ff_hctx].
      split; [exact LBF|]. split; [reflexivity|]. left. split; [discriminate|reflexivity]. }
    rewrite (HMAC_Final_correct hw (jk M) c3 K _ H3), bind_Ok in E. cbv beta iota in E.
    destruct (call_Final_ok M leave HL junk (ff_hbuf f) d3 K _ l4 J3 G2) as (d4 & l5 & -> & B4 & A5). rewrite bind_Ok. cbv beta iota zeta.
    assert (OT : bytes_ok (hmac K (hd ++ ct))) by apply hmac_ok.
    set (tag := hmac K (hd ++ ct)) in *. assert (length tag = 32%nat) as LT by apply hmac_length. clearbody tag.
    assert (firstn 32 b2 = firstn 32 hold) as E32 by (rewrite <- FB, firstn_firstn; f_equal; lia).
    destruct (verify_prefix tag hold 32) as (w & EW & HW); [exact OT|exact OB3|lia|lia|].
    assert (crypto_verify_bytes tag b2 32 = Ok w) as EW2.
    { rewrite <- EW. unfold crypto_verify_bytes. apply (verify_loop_firstn 32 0 tag b2 hold 0 32); [lia|lia|lia|exact E32]. }
    rewrite EW, bind_Ok in E. rewrite EW2, bind_Ok. injection E as <- <- <- <-.
    do 2 eexists. split; [reflexivity|]. split; [eauto using adds_trans|]. unfold dec_file_left. cbn [ff_buf ff_hbuf ff_header ff_hctx].
    split; [exact LBF|]. split; [reflexivity|]. right.
    unfold ferror in EFE. rewrite EFE in HIE. specialize (HSD (eq_sym HIE)). cbn [app] in HSD.
    split. { rewrite <- HSD, app_length. lia. }
    assert (skipn (length (stream_data fi) - 32) (stream_data fi) = firstn 32 hold) as ->.
    { rewrite <- HSD. cbn [app]. rewrite app_length, firstn_all2 by lia.
      replace (length ct0 + length hold - 32)%nat with (length ct0) by lia. rewrite skipn_app, skipn_all, Nat.sub_diag, skipn_O. reflexivity. }
    rewrite (firstn_all2 tag) in HW by lia.
    destruct (w =? 0); cbn [negb]; symmetry in HW.
    - apply list_eqb_spec in HW. split; [auto|]. split; [exact B4|]. split; [exact LT|]. tauto.
    - split; [auto|]. split; [exact B4|]. split; [exact LT|]. split; [discriminate|]. intros EQ. exfalso.
      apply list_eqb_spec in EQ. congruence.
  Qed.

  Lemma mem_dec_prep_ok lb hp e fi passwd P verbose force C0 sf l o :
    size_bits (m_szb M) -> bytes_ok passwd -> input_ok fi -> sf_ok sf ->
    scryptdec_file_prep M cfg lb hp e fi passwd P verbose force C0 = Ok o ->
    exists sf' l', mem_scryptdec_file_prep M cfg leave junk lb hp e fi passwd P verbose force C0 sf l = Ok (o, sf', l') /\
      adds clear l l' /\
      ((oc_rc o <> SCRYPT_OK /\ sf' = sf) \/ dec_spent (oc_rc o) (firstn 96 (stream_data fi)) sf sf').
  Proof.
    intros Hs HPW HI HF E. unfold scryptdec_file_prep in E. unfold mem_scryptdec_file_prep.
    apply bind_inv in E. destruct E as (u & EA & E). rewrite EA, bind_Ok. clear EA u.
    destruct (v_cookie_mem e); cbn [negb] in E |- *.
    2:{ injection E as <-. do 2 eexists. split; [reflexivity|]. split; [apply adds_refl|]. left. split; [discriminate|reflexivity]. }
    destruct (kh_alloc (S_cookie (scratch_bytes (jk M) 64)) hp) as [ci h1] eqn:EAL.
    destruct (load_header_ok fi HI) as (rc1 & hd & fi1 & EL & HR). rewrite EL in E |- *. cbv beta iota in E |- *.
    destruct (is_ok rc1) eqn:EO; cbn [negb] in E |- *.
    2:{ apply is_ok_false in EO. apply bind_inv in E. destruct E as (h2 & EH2 & E). rewrite EH2, bind_Ok. injection E as <-.
        do 2 eexists. split; [reflexivity|]. split; [apply adds_refl|]. left. split; [exact EO|reflexivity]. }
    apply is_ok_spec in EO. subst rc1.
    pose proof (header_result_ok_inv fi _ fi1 HR) as (-> & HL96 & _).
    pose proof (stream_data_ok fi HI) as HFO.
    apply bind_inv in E. destruct E as ([[[[lb1 ms] P1] dk] rc] & ES & E).
    eapply (mem_dec_setup_ok M cfg leave HL junk _ _ _ _ _ _ _ _ sf l) in ES; auto using scratch_bytes_ok, scratch_bytes_length, bytes_ok_firstn;
      [|rewrite firstn_length; lia].
    destruct ES as (sf1 & l1 & -> & A1 & LD & OD & T1 & T2 & T3). rewrite bind_Ok. cbv beta iota zeta in E |- *.
    assert (dec_spent rc (firstn 96 (stream_data fi)) sf sf1) as DS by (split; [exact T1|split; [exact T2|tauto]]).
    apply bind_inv in E. destruct E as (h3 & EH3 & E). rewrite EH3, bind_Ok.
    destruct (is_ok rc) eqn:EO; cbn [negb] in E |- *.
    - injection E as <-. apply is_ok_spec in EO. subst rc. do 2 eexists. split; [reflexivity|]. split; [exact A1|]. right. exact DS.
    - apply bind_inv in E. destruct E as (h4 & EH4 & E). rewrite EH4, bind_Ok. injection E as <-.
      do 2 eexists. split; [reflexivity|]. split; [exact A1|]. right. exact DS.
  Qed.

  Lemma mem_dec_file_ok lb hp e fi fo passwd P verbose force f sf l o :
    size_bits (m_szb M) -> bytes_ok passwd -> heap_ok hp -> input_ok fi -> N.of_nat (length (stream_data (no_errors fi))) < 2 ^ 64 ->
    ff_ok (ENCBLOCK + 32) f -> sf_ok sf ->
    scryptdec_file M cfg lb hp e fi fo passwd P verbose force = Ok o ->
    exists f' sf' l', mem_scryptdec_file M cfg leave junk lb hp e fi fo passwd P verbose force f sf l = Ok (o, f', sf', l') /\
      adds clear l l' /\
      ((oc_rc o <> SCRYPT_OK /\ f' = f /\ sf' = sf) \/
       (oc_rc o <> SCRYPT_OK /\ f' = f /\ dec_spent (oc_rc o) (firstn 96 (stream_data fi)) sf sf') \/
       (dec_file_left 96 fi (oc_rc o) f f' /\ dec_spent SCRYPT_OK (firstn 96 (stream_data fi)) sf sf')).
  Proof.
    intros Hs HPW HH HI HP HFF HF E. unfold scryptdec_file in E. unfold mem_scryptdec_file.
    apply bind_inv in E. destruct E as (u & EA & E). rewrite EA, bind_Ok. clear u EA.
    apply bind_inv in E. destruct E as (o1 & EP & E).
    destruct (mem_dec_prep_ok _ _ _ _ _ _ _ _ _ sf l _ Hs HPW HI HF EP) as (sf1 & l1 & -> & A1 & DS). rewrite bind_Ok.
    apply prep_inv in EP; auto. destruct EP as (HZ & HD & HR).
    destruct o1 as [rc1 lb1 ms1 P1 dk1 hp1 [C1 fi1]]. cbn [oc_lib oc_heap oc_P oc_rc oc_val oc_msgs fst snd] in *.
    destruct (is_ok rc1) eqn:EO; cbn [negb] in E |- *.
    2:{ apply is_ok_false in EO. injection E as <-. do 3 eexists. split; [reflexivity|]. split; [exact A1|]. cbn [oc_rc].
        destruct DS as [[_ DS]|DS]; [left|right; left]; auto. }
    apply is_ok_spec in EO. subst rc1. destruct DS as [[DS _]|DS]; [congruence|].
    inversion HR as [|rc hd fi' hp' B1 B2 B3 B4|rc fi' ms lb' dk hp' B1 B2 B3 B4 B5|fi' ms lb' hp' B1 B2 B3 B4]; subst; try congruence.
    pose proof (header_result_ok_inv fi _ fi1 B2) as (_ & HL96 & _ & _ & _ & HI1 & HSD & HSF & HPX).
    pose proof (stream_data_ok fi HI) as HFO.
    apply bind_inv in E. destruct E as ([[[rc2 fi2] fo2] hp2] & EC & E).
    match type of EC with scryptdec_file_copy M ?hpx e (Some ?C) fi1 fo = _ =>
      assert (heap_ok hpx) as HHX by (unfold heap_ok; cbn [kh_live kh_next]; constructor; [cbn; lia|]; eapply Forall_impl; [|exact HH]; cbv beta; intros; lia);
      destruct (mem_dec_copy_ok hpx e C fi1 fo f l1 rc2 fi2 fo2 hp2 HHX) as (f2 & l2 & EM & A2 & DL); auto end.
    { cbn [ck_dk]. apply keys_length. } { cbn [ck_dk]. apply keys_ok. } { cbn [ck_header]. apply bytes_ok_firstn, HFO. }
    { apply prefix_length in HPX. rewrite app_length in HPX. lia. }
    rewrite EM, bind_Ok. cbv beta iota in E |- *.
    apply bind_inv in E. destruct E as (h4 & EH4 & E). rewrite EH4, bind_Ok. injection E as <-.
    do 3 eexists. split; [reflexivity|]. split; [eauto using adds_trans|]. right. right. cbn [oc_rc]. split; [|exact DS].
    unfold dec_file_left in *. destruct DL as (D1 & D2 & D3). split; [exact D1|]. split; [exact D2|].
    destruct D3 as [D3|(D0 & D3 & D4 & D5 & D6)]; [left; exact D3|]. right. rewrite HSD in D0, D6. rewrite skipn_length in D0, D6. rewrite skipn_skipn in D6.
    split; [lia|]. split; [exact D3|]. split; [exact D4|]. split; [exact D5|].
    replace (length (stream_data fi) - 96 - 32 + 96)%nat with (length (stream_data fi) - 32)%nat in D6 by lia. exact D6.
  Qed.
End Mem2.
