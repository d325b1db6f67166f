(** Proofs about the scryptenc.c model: stream decryption. *)
From Verif Require Import Base SpecBytes SpecSHA SpecScrypt SpecScryptAPI SpecAES SpecDRBG SpecFormat SpecStream
  M_endian P_endian M_sha256_tr M_simd M_sha256_hw M_sha256 P_sha256 M_smix M_aes_hw M_aesctr P_aes P_aesctr P_scrypt P_scrypt_ref
  M_scrypt_sel P_scrypt_sel Prop_scrypt M_verify P_verify M_entropy P_entropy M_machine M_double M_memlimit M_cpuperf
  M_humansize P_humansize M_params M_stdio P_stdio M_scryptenc SpecScryptenc P_scryptenc P_scryptenc2 P_scryptenc3 P_scryptenc4 P_scryptenc5
  P_scryptenc6 P_scryptenc7.
Local Opaque ENCBLOCK.

Lemma sub_firstn {A} (l : list A) o n m : (o + n <= m)%nat -> sub (firstn m l) o n = sub l o n.
Proof. intros H. unfold sub. rewrite skipn_firstn_comm, firstn_firstn. f_equal. lia. Qed.
Lemma nth_firstn {A} (l : list A) : forall i m d, (i < m)%nat -> nth i (firstn m l) d = nth i l d.
Proof. induction l as [|x l IH]; intros i m d H; [rewrite firstn_nil; reflexivity|]. destruct m; [lia|]. destruct i; [reflexivity|]. cbn. apply IH. lia. Qed.
Lemma get_head_firstn f n : (48 <= n)%nat -> get_head (firstn n f) = get_head f.
Proof. intros H. unfold get_head. rewrite !sub_firstn, nth_firstn by lia. reflexivity. Qed.
Lemma checksum_firstn f n : (64 <= n)%nat -> (checksum_ok (firstn n f) <-> checksum_ok f).
Proof. intros H. unfold checksum_ok. rewrite sub_firstn, firstn_firstn by lia. rewrite Nat.min_l by lia. reflexivity. Qed.
Lemma passphrase_firstn passwd f n : (96 <= n)%nat -> (passphrase_ok passwd (firstn n f) <-> passphrase_ok passwd f).
Proof. intros H. unfold passphrase_ok. rewrite sub_firstn, firstn_firstn, get_head_firstn by lia. rewrite Nat.min_l by lia. reflexivity. Qed.

Section DecFile.
  Context (M : machine) (cfg : clk_cfg).
  Lemma dec_setup_firstn lb e lim passwd f n verbose force lb' ms dk rc : (96 <= n)%nat ->
    dec_setup_result M cfg lb e lim passwd (firstn n f) verbose force lb' ms dk rc ->
    dec_setup_result M cfg lb e lim passwd f verbose force lb' ms dk rc.
  Proof.
    intros Hn HR. pose proof (get_head_firstn f n ltac:(lia)) as EH. pose proof (checksum_firstn f n ltac:(lia)) as EC. pose proof (passphrase_firstn passwd f n Hn) as EP.
    inversion HR as [dk0 HX|dk0 sst m rc0 HX HY HZ|dk0 sst m lb0 HX HY HZ|sst m lb0 HX HY HZ HW|sst m lb0 HX HY HZ HW]; subst; rewrite ?EH in *.
    - apply DS_checksum. tauto.
    - apply DS_params; tauto.
    - eapply DS_key; eauto; tauto.
    - eapply DS_pass; eauto; tauto.
    - eapply DS_ok; eauto; tauto.
  Qed.

  (** *** scryptdec_file_copy *)
  Inductive copy_result (e : call_env) (dk header : bytes) (fi : instream) (fo : outstream) (hp : kheap)
    : rcode -> instream -> outstream -> kheap -> Prop :=
  | CR_aes rc hp' : rc = aes_rc e -> (v_key_mem e = false \/ v_ctr_mem e = false) -> heap_clean hp hp' ->
      copy_result e dk header fi fo hp rc fi fo hp'
  | CR_write ct hold w fi' fo' hp' : v_key_mem e = true -> v_ctr_mem e = true -> o_err fo' = true ->
      prefix (ct ++ hold) (stream_data (no_errors fi)) -> length hold = 32%nat ->
      prefix w (aes_ctr (firstn 32 dk) 0 0 ct) -> o_data fo' = o_data fo ++ w -> heap_leak M (firstn 32 dk) hp hp' ->
      copy_result e dk header fi fo hp SCRYPT_EWRFILE fi' fo' hp'
  | CR_read ct hold fi' fo' hp' : v_key_mem e = true -> v_ctr_mem e = true -> o_err fo' = o_err fo -> i_err fi' = true -> stream_fails fi = true ->
      prefix (ct ++ hold) (stream_data (no_errors fi)) -> (length hold = 32%nat \/ ct = []) ->
      o_data fo' = o_data fo ++ aes_ctr (firstn 32 dk) 0 0 ct -> heap_clean hp hp' ->
      copy_result e dk header fi fo hp SCRYPT_ERDFILE fi' fo' hp'
  | CR_short fi' fo' hp' : v_key_mem e = true -> v_ctr_mem e = true -> o_err fo' = o_err fo -> i_err fi' = false -> stream_fails fi = false ->
      (length (stream_data fi) < 32)%nat -> o_data fo' = o_data fo -> heap_clean hp hp' ->
      copy_result e dk header fi fo hp SCRYPT_EINVAL fi' fo' hp'
  | CR_body rc fi' fo' hp' : v_key_mem e = true -> v_ctr_mem e = true -> o_err fo' = o_err fo -> i_err fi' = false -> stream_fails fi = false ->
      (32 <= length (stream_data fi))%nat ->
      o_data fo' = o_data fo ++ aes_ctr (firstn 32 dk) 0 0 (firstn (length (stream_data fi) - 32) (stream_data fi)) ->
      ((rc = SCRYPT_OK /\ skipn (length (stream_data fi) - 32) (stream_data fi) = hmac (skipn 32 dk) (header ++ firstn (length (stream_data fi) - 32) (stream_data fi))) \/
       (rc = SCRYPT_EINVAL /\ skipn (length (stream_data fi) - 32) (stream_data fi) <> hmac (skipn 32 dk) (header ++ firstn (length (stream_data fi) - 32) (stream_data fi)))) ->
      heap_clean hp hp' ->
      copy_result e dk header fi fo hp rc fi' fo' hp'.

  Lemma copy_ok hp e C fi fo :
    heap_ok hp -> length (ck_dk C) = 64%nat -> bytes_ok (ck_dk C) -> bytes_ok (ck_header C) ->
    input_ok fi -> N.of_nat (length (stream_data (no_errors fi))) < 2 ^ 64 ->
    exists rc fi' fo' hp', scryptdec_file_copy M hp e (Some C) fi fo = Ok (rc, fi', fo', hp') /\
      copy_result e (ck_dk C) (ck_header C) fi fo hp rc fi' fo' hp'.
  Proof.
    intros HH HLK HOK HOH HI HP. unfold scryptdec_file_copy. set (dk := ck_dk C) in *. set (hd := ck_header C) in *.
    rewrite rd_ok by lia. rewrite bind_Ok.
    assert (sub dk 32 32 = skipn 32 dk) as EK by (unfold sub; apply firstn_all2; rewrite skipn_length; lia). rewrite EK.
    assert (bytes_ok (skipn 32 dk)) as OK1 by (apply bytes_ok_skipn, HOK).
    destruct (hmac_junk_init (shw M) (jk M) (skipn 32 dk) OK1) as (c1 & -> & HC1). rewrite bind_Ok.
    destruct (HMAC_Update_correct (shw M) (jk M) c1 _ [] hd HC1 HOH) as (c2 & -> & HC2). rewrite bind_Ok. cbn [app] in HC2.
    destruct (start_aes_cases M e hp dk HLK HOK HH)
      as [(K1 & ->)|[(K1 & K2 & ->)|(K1 & K2 & key & AES & -> & HK & HS)]]; rewrite bind_Ok.
    - do 4 eexists. split; [reflexivity|]. apply CR_aes; auto; [unfold aes_rc; rewrite K1; reflexivity|apply heap_clean_refl, HH].
    - do 4 eexists. split; [reflexivity|]. apply CR_aes; auto; [unfold aes_rc; rewrite K1; reflexivity|apply (heap_clean_mk hp _ 1); [exact HH|lia]].
    - assert (length (firstn 32 dk) = 32%nat) as LK by (rewrite firstn_length; lia).
      destruct (dec_loop_ok M (skipn 32 dk) (firstn 32 dk) (in_size fi) AES c2 [] fi fo hd 0
        (bytes_ok_firstn _ _ HOK) (or_intror LK) HS HC2 HI (Forall_nil _) (Nat.le_0_l _) ltac:(cbn [length]; lia) ltac:(lia))
        as (eof & AES' & hctx' & buf & fi' & fo' & ct & hold & w & -> & R0 & R1 & R2 & R3 & R4 & R5 & R6 & R7). rewrite bind_Ok.
      cbn [app] in R3.
      pose proof (heap_fresh hp (kh_next hp) HH ltac:(lia)) as F0.
      assert (fresh (S (kh_next hp)) ((kh_next hp, Some (S_key key)) :: kh_live hp)) as F1.
      { constructor; [cbn; lia|]. apply heap_fresh; [exact HH|lia]. }
      rewrite kh_set_head, bind_Ok by exact F1.
      destruct eof; cbn [negb].
      2:{ unfold crypto_aesctr_free. rewrite zero_free_head, bind_Ok by exact F1.
          do 4 eexists. split; [reflexivity|]. destruct (R7 eq_refl) as [R71 R72].
          apply (CR_write _ _ _ _ _ _ ct hold w); auto.
          split; [|split].
          - unfold heap_ok. cbn [kh_live kh_next]. constructor; [cbn; lia|]. eapply Forall_impl; [|exact HH]. cbv beta. intros; lia.
          - exists key. split; [exact HK|reflexivity].
          - exists 1%nat. reflexivity. }
      destruct (R6 eq_refl) as (-> & -> & T2 & T3 & T4 & T5).
      unfold crypto_aesctr_free, crypto_aes_key_free. rewrite zero_free_head, bind_Ok by exact F1. rewrite zero_free_head, bind_Ok by exact F0.
      assert (heap_clean hp (mk_kh (S (S (kh_next hp))) (kh_live hp) (None :: None :: kh_released hp))) as HC by (apply (heap_clean_mk hp _ 2); [exact HH|lia]).
      assert (length hold = 32%nat \/ ct = []) as HHC by (destruct (Nat.lt_ge_cases (length hold) 32); [right; auto|left; lia]).
      unfold ferror. rewrite T4. destruct (stream_fails fi) eqn:EF.
      + do 4 eexists. split; [reflexivity|]. apply (CR_read _ _ _ _ _ _ ct hold); auto.
      + specialize (T5 eq_refl). cbn [app] in T5.
        destruct (Nat.ltb_spec (length hold) 32) as [HS32|HS32].
        * do 4 eexists. split; [reflexivity|]. rewrite (R5 HS32) in *. cbn [app aes_ctr] in *. rewrite app_nil_r in R1.
          apply CR_short; auto. rewrite <- T5. exact HS32.
        * assert (length hold = 32%nat) as LH by lia.
          assert (ct = firstn (length (stream_data fi) - 32) (stream_data fi)) as ECT.
          { rewrite <- T5, app_length, firstn_app, LH. rewrite firstn_all2 by lia.
            replace (length ct + 32 - 32 - length ct)%nat with 0%nat by lia. rewrite firstn_O, app_nil_r. reflexivity. }
          assert (hold = skipn (length (stream_data fi) - 32) (stream_data fi)) as EHO.
          { rewrite <- T5, app_length, skipn_app, LH. rewrite skipn_all2 by lia.
            replace (length ct + 32 - 32 - length ct)%nat with 0%nat by lia. reflexivity. }
          rewrite (HMAC_Final_correct _ _ _ _ _ T2), bind_Ok.
          destruct (verify_prefix (hmac (skipn 32 dk) (hd ++ ct)) hold 32) as (v & -> & HV).
          { apply hmac_ok. } { exact R0. } { rewrite hmac_length; lia. } { lia. }
          rewrite (firstn_all2 (hmac _ _)) in HV by (rewrite hmac_length; lia). rewrite (firstn_all2 hold) in HV by lia.
          rewrite bind_Ok, HV. do 4 eexists. split; [reflexivity|].
          assert (32 <= length (stream_data fi))%nat by (rewrite <- T5, app_length; lia).
          apply CR_body; auto; rewrite <- ?ECT, <- ?EHO; auto.
          destruct (list_eqb (hmac (skipn 32 dk) (hd ++ ct)) hold) eqn:EL; cbn [negb].
          -- apply list_eqb_spec in EL. left. auto.
          -- apply list_eqb_false in EL. right. auto.
  Qed.

  (** *** scryptdec_file_prep *)
  Inductive prep_result (lb : lib) (e : call_env) (P : xparams) (passwd : bytes) (fi : instream) (verbose force : bool) (C0 : option cookie) (hp : kheap)
    : rcode -> list msg -> xparams -> option cookie -> instream -> kheap -> Prop :=
  | PR_nomem : v_cookie_mem e = false -> prep_result lb e P passwd fi verbose force C0 hp SCRYPT_ENOMEM [] P C0 fi hp
  | PR_header rc hd fi' hp' : v_cookie_mem e = true -> header_result fi rc hd fi' -> rc <> SCRYPT_OK -> heap_clean hp hp' ->
      prep_result lb e P passwd fi verbose force C0 hp rc [] P C0 fi' hp'
  | PR_setup rc fi' ms lb' dk hp' : v_cookie_mem e = true -> header_result fi SCRYPT_OK (firstn 96 (stream_data fi)) fi' ->
      dec_setup_result M cfg lb e (x_lim P) passwd (stream_data fi) verbose force lb' ms dk rc -> rc <> SCRYPT_OK -> heap_clean hp hp' ->
      prep_result lb e P passwd fi verbose force C0 hp rc ms (P_of (x_lim P) (get_head (stream_data fi))) C0 fi' hp'
  | PR_ok fi' ms lb' hp' : v_cookie_mem e = true -> header_result fi SCRYPT_OK (firstn 96 (stream_data fi)) fi' ->
      dec_setup_result M cfg lb e (x_lim P) passwd (stream_data fi) verbose force lb' ms (fmt_keys kdf passwd (get_head (stream_data fi))) SCRYPT_OK ->
      hp' = mk_kh (S (kh_next hp)) ((kh_next hp, Some (S_cookie (fmt_keys kdf passwd (get_head (stream_data fi))))) :: kh_live hp) (kh_released hp) ->
      prep_result lb e P passwd fi verbose force C0 hp SCRYPT_OK ms (P_of (x_lim P) (get_head (stream_data fi)))
        (Some (mk_cookie (kh_next hp) (firstn 96 (stream_data fi)) (fmt_keys kdf passwd (get_head (stream_data fi))))) fi' hp'.

  Lemma prep_inv lb hp e fi passwd P verbose force C0 o :
    size_bits (m_szb M) -> bytes_ok passwd -> heap_ok hp -> input_ok fi ->
    scryptdec_file_prep M cfg lb hp e fi passwd P verbose force C0 = Ok o ->
    all_zero P = true /\ lb_drbg (oc_lib o) = lb_drbg lb /\
    prep_result lb e P passwd fi verbose force C0 hp (oc_rc o) (oc_msgs o) (oc_P o) (fst (oc_val o)) (snd (oc_val o)) (oc_heap o).
  Proof.
    intros Hs HPW HH HI E. unfold scryptdec_file_prep in E.
    apply bind_inv in E. destruct E as (u & EA & E).
    split. { unfold assert_ in EA. destruct (all_zero P); auto; discriminate. }
    clear u EA. destruct (v_cookie_mem e) eqn:EC; cbn [negb] in E.
    2:{ injection E as <-. cbn [oc_lib oc_heap oc_P oc_rc oc_val oc_msgs fst snd]. split; [reflexivity|]. apply PR_nomem; auto. }
    cbn [kh_alloc] in E. pose proof (heap_fresh hp (kh_next hp) HH ltac:(lia)) as F0.
    destruct (load_header_ok fi HI) as (rc & hd & fi' & EL & HR). rewrite EL in E.
    destruct (is_ok rc) eqn:EO; cbn [negb] in E.
    2:{ apply is_ok_false in EO. rewrite zero_free_head, bind_Ok in E by exact F0.
        injection E as <-. cbn [oc_lib oc_heap oc_P oc_rc oc_val oc_msgs fst snd]. split; [reflexivity|].
        eapply PR_header; eauto. apply (heap_clean_mk hp _ 1); [exact HH|lia]. }
    apply is_ok_spec in EO. subst rc.
    assert (hd = firstn 96 (stream_data fi) /\ (96 <= length (stream_data fi))%nat) as (-> & HL).
    { inversion HR; subst; auto; destruct (stream_fails fi); discriminate. }
    pose proof (stream_data_ok fi HI) as HFO.
    apply bind_inv in E. destruct E as ([[[[lb1 ms] P1] dk] rc] & ES & E).
    apply scryptdec_setup_inv in ES; auto using scratch_bytes_ok, scratch_bytes_length, bytes_ok_firstn; [|rewrite firstn_length; lia].
    destruct ES as (A1 & A2 & A3 & A4). rewrite get_head_firstn in A1 by lia. apply dec_setup_firstn in A4; [|lia].
    rewrite kh_set_head, bind_Ok in E by exact F0.
    destruct (is_ok rc) eqn:EO; cbn [negb] in E.
    2:{ apply is_ok_false in EO. rewrite zero_free_head, bind_Ok in E by exact F0.
        injection E as <-. cbn [oc_lib oc_heap oc_P oc_rc oc_val oc_msgs fst snd]. split; [exact A3|]. subst P1.
        eapply PR_setup; eauto. apply (heap_clean_mk hp _ 1); [exact HH|lia]. }
    apply is_ok_spec in EO. subst rc.
    assert (dk = fmt_keys kdf passwd (get_head (stream_data fi))) as -> by (inversion A4; auto; congruence).
    injection E as <-. cbn [oc_lib oc_heap oc_P oc_rc oc_val oc_msgs fst snd]. split; [exact A3|]. subst P1.
    eapply PR_ok; eauto.
  Qed.
  Lemma prep_total lb hp e fi passwd P verbose force C0 sst m rc :
    size_bits (m_szb M) -> bytes_ok passwd -> heap_ok hp -> input_ok fi -> all_zero P = true ->
    ((96 <= length (stream_data fi))%nat ->
     checkparams M cfg (lb_smix lb) (v_params e) (x_lim P) (Z.of_N (fh_logN (get_head (stream_data fi)))) (fh_r (get_head (stream_data fi)))
       (fh_p (get_head (stream_data fi))) verbose force = Ok (sst, m, rc)) ->
    all_ok (v_kdf2 e) ->
    exists o, scryptdec_file_prep M cfg lb hp e fi passwd P verbose force C0 = Ok o.
  Proof.
    intros Hs HPW HH HI HZ HC H2. unfold scryptdec_file_prep. rewrite HZ. cbn [assert_]. rewrite bind_Ok.
    destruct (v_cookie_mem e) eqn:EC; cbn [negb]; [|eauto].
    cbn [kh_alloc]. pose proof (heap_fresh hp (kh_next hp) HH ltac:(lia)) as F0.
    destruct (load_header_ok fi HI) as (rc1 & hd & fi' & -> & HR).
    destruct (is_ok rc1) eqn:EO; cbn [negb].
    2:{ rewrite zero_free_head, bind_Ok by exact F0. eauto. }
    apply is_ok_spec in EO. subst rc1.
    assert (hd = firstn 96 (stream_data fi) /\ (96 <= length (stream_data fi))%nat) as (-> & HL).
    { inversion HR; subst; auto; destruct (stream_fails fi); discriminate. }
    pose proof (stream_data_ok fi HI) as HFO. specialize (HC HL).
    assert (96 <= length (firstn 96 (stream_data fi)))%nat as HL2 by (rewrite firstn_length; lia).
    rewrite <- (get_head_firstn (stream_data fi) 96) in HC by lia.
    destruct (scryptdec_setup_total M cfg lb e P (firstn 96 (stream_data fi)) (scratch_bytes (jk M) 64) passwd verbose force sst m rc Hs HPW
      (bytes_ok_firstn _ _ HFO) HL2 (scratch_bytes_length _ _) (scratch_bytes_ok _ _) HC H2) as (lb1 & ms & P1 & dk & rc1 & ->).
    rewrite bind_Ok, kh_set_head, bind_Ok by exact F0. destruct (is_ok rc1); cbn [negb]; [eauto|].
    rewrite zero_free_head, bind_Ok by exact F0. eauto.
  Qed.
End DecFile.
