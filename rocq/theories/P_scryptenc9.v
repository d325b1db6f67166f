(** Proofs about the scryptenc.c model: scryptdec_file as a whole. *)
From Verif Require Import Base SpecBytes SpecSHA SpecScrypt SpecScryptAPI SpecAES SpecDRBG SpecFormat SpecStream
  M_endian P_endian M_sha256_tr M_simd M_sha256_hw M_sha256 P_sha256 M_smix M_aes_hw M_aesctr P_aes P_aesctr P_scrypt P_scrypt_ref
  M_scrypt_sel P_scrypt_sel Prop_scrypt M_verify P_verify M_entropy P_entropy M_machine M_double M_memlimit M_cpuperf
  M_humansize P_humansize M_params M_stdio P_stdio M_scryptenc SpecScryptenc P_scryptenc P_scryptenc2 P_scryptenc3 P_scryptenc4 P_scryptenc5
  P_scryptenc6 P_scryptenc7 P_scryptenc8.
Local Opaque ENCBLOCK.

Lemma zero_free_second i j a c n l r : i <> j -> fresh i l ->
  zero_free i (mk_kh n ((j, a) :: (i, c) :: l) r) = Ok (mk_kh n ((j, a) :: l) (None :: r)).
Proof.
  intros Hij HF. apply Nat.eqb_neq in Hij. unfold zero_free, kh_set, kh_free. cbn [kh_live kh_find kh_next kh_released].
  rewrite Hij, Nat.eqb_refl. cbn [map fst bind]. cbn [kh_live kh_find kh_next kh_released map fst].
  rewrite Hij, Nat.eqb_refl. cbn [kh_find]. rewrite Hij, Nat.eqb_refl. rewrite map_fresh by exact HF.
  cbn [filter fst]. rewrite Hij, Nat.eqb_refl. cbn [negb]. rewrite filter_fresh by exact HF. reflexivity.
Qed.
Lemma heap_clean_free i c h h' : heap_ok h -> (kh_next h <= i)%nat ->
  heap_clean (mk_kh (S i) ((i, c) :: kh_live h) (kh_released h)) h' ->
  exists h2, zero_free i h' = Ok h2 /\ heap_clean h h2.
Proof.
  intros HH Hi (A1 & A2 & k & A3). destruct h' as [n' l' r']. cbn [kh_live kh_next kh_released] in *. subst l' r'.
  pose proof (heap_fresh h i HH Hi) as F0.
  assert (i < n')%nat as Hn by (inversion A1; assumption).
  rewrite zero_free_head by exact F0. eexists. split; [reflexivity|].
  change (None :: repeat None k ++ kh_released h) with (repeat (@None secret) (S k) ++ kh_released h). apply heap_clean_mk; [exact HH|lia].
Qed.

Section DecFile2.
  Context (M : machine) (cfg : clk_cfg).
  (** [h'] has one expanded key object more than [h]. *)
  Definition heap_leak1 (key : bytes) (h h' : kheap) : Prop :=
    heap_ok h' /\ (exists a k, key_rep (m_aes M) key k /\ kh_live h' = (a, Some (S_key k)) :: kh_live h) /\
    exists k, kh_released h' = repeat None k ++ kh_released h.
  Lemma heap_leak_free key i c h h' : heap_ok h -> (kh_next h <= i)%nat ->
    heap_leak M key (mk_kh (S i) ((i, c) :: kh_live h) (kh_released h)) h' ->
    exists h2, zero_free i h' = Ok h2 /\ heap_leak1 key h h2.
  Proof.
    intros HH Hi (A1 & (k & K1 & A2) & j & A3). destruct h' as [n' l' r']. cbn [kh_live kh_next kh_released] in *. subst l' r'.
    pose proof (heap_fresh h i HH Hi) as F0.
    assert (S i < n')%nat as Hn by (inversion A1; assumption).
    rewrite zero_free_second by (auto; lia). eexists. split; [reflexivity|].
    split; [|split].
    - unfold heap_ok. cbn [kh_live kh_next]. constructor; [exact Hn|]. inversion A1 as [|? ? _ A4]. inversion A4. assumption.
    - exists (S i), k. split; [exact K1|reflexivity].
    - exists (S j). reflexivity.
  Qed.

  Inductive dec_file_result (lb : lib) (e : call_env) (P : xparams) (passwd : bytes) (fi : instream) (fo : outstream) (verbose force : bool) (hp : kheap)
    : rcode -> list msg -> xparams -> instream -> outstream -> kheap -> Prop :=
  | FD_nomem : v_cookie_mem e = false -> dec_file_result lb e P passwd fi fo verbose force hp SCRYPT_ENOMEM [] P fi fo hp
  | FD_header rc hd fi' hp' : v_cookie_mem e = true -> header_result fi rc hd fi' -> rc <> SCRYPT_OK -> heap_clean hp hp' ->
      dec_file_result lb e P passwd fi fo verbose force hp rc [] P fi' fo hp'
  | FD_setup rc fi' ms lb' dk hp' : v_cookie_mem e = true -> header_result fi SCRYPT_OK (firstn 96 (stream_data fi)) fi' ->
      dec_setup_result M cfg lb e (x_lim P) passwd (stream_data fi) verbose force lb' ms dk rc -> rc <> SCRYPT_OK -> heap_clean hp hp' ->
      dec_file_result lb e P passwd fi fo verbose force hp rc ms (P_of (x_lim P) (get_head (stream_data fi))) fi' fo hp'
  | FD_aes rc fi1 ms lb' dk hp' : v_cookie_mem e = true -> header_result fi SCRYPT_OK (firstn 96 (stream_data fi)) fi1 ->
      dec_setup_result M cfg lb e (x_lim P) passwd (stream_data fi) verbose force lb' ms dk SCRYPT_OK ->
      rc = aes_rc e -> (v_key_mem e = false \/ v_ctr_mem e = false) -> heap_clean hp hp' ->
      dec_file_result lb e P passwd fi fo verbose force hp rc ms (P_of (x_lim P) (get_head (stream_data fi))) fi1 fo hp'
  | FD_write fi1 ms lb' dk ct hold w fi' fo' hp' : v_cookie_mem e = true -> header_result fi SCRYPT_OK (firstn 96 (stream_data fi)) fi1 ->
      dec_setup_result M cfg lb e (x_lim P) passwd (stream_data fi) verbose force lb' ms dk SCRYPT_OK ->
      v_key_mem e = true -> v_ctr_mem e = true ->
      o_err fo' = true -> prefix (firstn 96 (stream_data fi) ++ ct ++ hold) (stream_data (no_errors fi)) -> length hold = 32%nat ->
      prefix w (aes_ctr (key_enc kdf passwd (get_head (stream_data fi))) 0 0 ct) -> o_data fo' = o_data fo ++ w ->
      heap_leak1 (key_enc kdf passwd (get_head (stream_data fi))) hp hp' ->
      dec_file_result lb e P passwd fi fo verbose force hp SCRYPT_EWRFILE ms (P_of (x_lim P) (get_head (stream_data fi))) fi' fo' hp'
  | FD_read fi1 ms lb' dk ct hold fi' fo' hp' : v_cookie_mem e = true -> header_result fi SCRYPT_OK (firstn 96 (stream_data fi)) fi1 ->
      dec_setup_result M cfg lb e (x_lim P) passwd (stream_data fi) verbose force lb' ms dk SCRYPT_OK ->
      v_key_mem e = true -> v_ctr_mem e = true ->
      o_err fo' = o_err fo -> i_err fi' = true -> stream_fails fi = true ->
      prefix (firstn 96 (stream_data fi) ++ ct ++ hold) (stream_data (no_errors fi)) -> (length hold = 32%nat \/ ct = []) ->
      o_data fo' = o_data fo ++ aes_ctr (key_enc kdf passwd (get_head (stream_data fi))) 0 0 ct -> heap_clean hp hp' ->
      dec_file_result lb e P passwd fi fo verbose force hp SCRYPT_ERDFILE ms (P_of (x_lim P) (get_head (stream_data fi))) fi' fo' hp'
  | FD_short fi1 ms lb' dk fi' fo' hp' : v_cookie_mem e = true -> header_result fi SCRYPT_OK (firstn 96 (stream_data fi)) fi1 ->
      dec_setup_result M cfg lb e (x_lim P) passwd (stream_data fi) verbose force lb' ms dk SCRYPT_OK ->
      v_key_mem e = true -> v_ctr_mem e = true ->
      o_err fo' = o_err fo -> i_err fi' = false -> stream_fails fi = false ->
      (length (stream_data fi) < 128)%nat -> o_data fo' = o_data fo -> heap_clean hp hp' ->
      dec_file_result lb e P passwd fi fo verbose force hp SCRYPT_EINVAL ms (P_of (x_lim P) (get_head (stream_data fi))) fi' fo' hp'
  | FD_body rc fi1 ms lb' dk fi' fo' hp' : v_cookie_mem e = true -> header_result fi SCRYPT_OK (firstn 96 (stream_data fi)) fi1 ->
      dec_setup_result M cfg lb e (x_lim P) passwd (stream_data fi) verbose force lb' ms dk SCRYPT_OK ->
      v_key_mem e = true -> v_ctr_mem e = true ->
      o_err fo' = o_err fo -> i_err fi' = false -> stream_fails fi = false ->
      (128 <= length (stream_data fi))%nat ->
      o_data fo' = o_data fo ++ aes_ctr (key_enc kdf passwd (get_head (stream_data fi))) 0 0 (sub (stream_data fi) 96 (length (stream_data fi) - 128)) ->
      ((rc = SCRYPT_OK /\ trailer_ok passwd (stream_data fi)) \/ (rc = SCRYPT_EINVAL /\ ~ trailer_ok passwd (stream_data fi))) ->
      heap_clean hp hp' ->
      dec_file_result lb e P passwd fi fo verbose force hp rc ms (P_of (x_lim P) (get_head (stream_data fi))) fi' fo' hp'.

  Lemma header_result_ok_inv fi hd fi' : header_result fi SCRYPT_OK hd fi' ->
    hd = firstn 96 (stream_data fi) /\ (96 <= length (stream_data fi))%nat /\ firstn 6 (stream_data fi) = fmt_magic /\ nth 6 (stream_data fi) 0 = 0 /\
    i_err fi' = i_err fi /\ input_ok fi' /\ stream_data fi' = skipn 96 (stream_data fi) /\ stream_fails fi' = stream_fails fi /\
    prefix (firstn 96 (stream_data fi) ++ stream_data (no_errors fi')) (stream_data (no_errors fi)).
  Proof. intros HR. inversion HR; subst; auto 12; destruct (stream_fails fi); discriminate. Qed.

  (** Reading a cookie's copy result in terms of the whole stream. *)
  Lemma dec_file_result_copy lb e P passwd fi fo verbose force hp fi1 ms lb' rc fi' fo' hp2 :
    heap_ok hp -> v_cookie_mem e = true -> header_result fi SCRYPT_OK (firstn 96 (stream_data fi)) fi1 ->
    dec_setup_result M cfg lb e (x_lim P) passwd (stream_data fi) verbose force lb' ms (fmt_keys kdf passwd (get_head (stream_data fi))) SCRYPT_OK ->
    copy_result M e (fmt_keys kdf passwd (get_head (stream_data fi))) (firstn 96 (stream_data fi)) fi1 fo
      (mk_kh (S (kh_next hp)) ((kh_next hp, Some (S_cookie (fmt_keys kdf passwd (get_head (stream_data fi))))) :: kh_live hp) (kh_released hp)) rc fi' fo' hp2 ->
    exists hp3, zero_free (kh_next hp) hp2 = Ok hp3 /\
      dec_file_result lb e P passwd fi fo verbose force hp rc ms (P_of (x_lim P) (get_head (stream_data fi))) fi' fo' hp3.
  Proof.
    intros HH HM HHR HDS HC. set (f := stream_data fi) in *. set (h := get_head f) in *.
    pose proof (header_result_ok_inv fi _ fi1 HHR) as (_ & HL & _ & _ & _ & _ & HSD & HSF & HPX). fold f in HL, HSD, HPX.
    inversion HC as [rc0 hp' A1 A2 A3|ct hold w fi0 fo0 hp' A1 A2 A3 A4 A5 A6 A7 A8|ct hold fi0 fo0 hp' A1 A2 A3 A4 A5 A6 A7 A8 A9|fi0 fo0 hp' A1 A2 A3 A4 A5 A6 A7 A8|rc0 fi0 fo0 hp' A1 A2 A3 A4 A5 A6 A7 A8 A9]; subst.
    - destruct (heap_clean_free _ _ _ _ HH (le_n _) A3) as (hp3 & EF & HC3). exists hp3. split; [exact EF|]. eapply FD_aes; eauto.
    - destruct (heap_leak_free _ _ _ _ _ HH (le_n _) A8) as (hp3 & EF & HC3). exists hp3. split; [exact EF|].
      apply (FD_write lb e P passwd fi fo verbose force hp fi1 ms lb' _ ct hold w fi' fo' hp3 HM HHR HDS); auto.
      eapply prefix_trans; [|exact HPX]. apply prefix_cons_app. exact A4.
    - destruct (heap_clean_free _ _ _ _ HH (le_n _) A9) as (hp3 & EF & HC3). exists hp3. split; [exact EF|].
      apply (FD_read lb e P passwd fi fo verbose force hp fi1 ms lb' _ ct hold fi' fo' hp3 HM HHR HDS); auto; try congruence.
      eapply prefix_trans; [|exact HPX]. apply prefix_cons_app. exact A6.
    - destruct (heap_clean_free _ _ _ _ HH (le_n _) A8) as (hp3 & EF & HC3). exists hp3. split; [exact EF|].
      rewrite HSD, skipn_length in A6.
      eapply FD_short; eauto; try congruence. fold f. lia.
    - destruct (heap_clean_free _ _ _ _ HH (le_n _) A9) as (hp3 & EF & HC3). exists hp3. split; [exact EF|].
      rewrite HSD in A6, A7, A8. rewrite skipn_length in A6, A7, A8.
      replace (length f - 96 - 32)%nat with (length f - 128)%nat in A7, A8 by lia.
      change (firstn (length f - 128) (skipn 96 f)) with (sub f 96 (length f - 128)) in A7, A8.
      rewrite skipn_skipn in A8. replace (length f - 128 + 96)%nat with (length f - 32)%nat in A8 by lia.
      assert (firstn 96 f ++ sub f 96 (length f - 128) = firstn (length f - 32) f) as EB.
      { replace (length f - 32)%nat with (96 + (length f - 128))%nat by lia. symmetry. exact (sub_split f 0 96 (length f - 128)). }
      rewrite EB in A8. fold (key_enc kdf passwd h) in A7. fold (key_hmac kdf passwd h) in A8.
      eapply FD_body; eauto; try congruence. fold f. lia.
  Qed.

  Lemma scryptdec_file_inv lb hp e fi fo passwd P verbose force o :
    size_bits (m_szb M) -> bytes_ok passwd -> heap_ok hp -> input_ok fi -> N.of_nat (length (stream_data (no_errors fi))) < 2 ^ 64 ->
    scryptdec_file M cfg lb hp e fi fo passwd P verbose force = Ok o ->
    all_zero P = true /\ lb_drbg (oc_lib o) = lb_drbg lb /\ oc_dk o = [] /\
    dec_file_result lb e P passwd fi fo verbose force hp (oc_rc o) (oc_msgs o) (oc_P o) (fst (oc_val o)) (snd (oc_val o)) (oc_heap o).
  Proof.
    intros Hs HPW HH HI HP E. unfold scryptdec_file in E.
    apply bind_inv in E. destruct E as (u & EA & E). clear u EA.
    apply bind_inv in E. destruct E as (o1 & EP & E).
    apply prep_inv in EP; auto. destruct EP as (HZ & HD & HR). split; [exact HZ|].
    destruct o1 as [rc1 lb1 ms1 P1 dk1 hp1 [C1 fi1]]. cbn [oc_lib oc_heap oc_P oc_rc oc_val oc_msgs fst snd] in *.
    destruct (is_ok rc1) eqn:EO; cbn [negb] in E.
    2:{ apply is_ok_false in EO. injection E as <-. cbn [oc_lib oc_heap oc_P oc_rc oc_val oc_msgs oc_dk fst snd]. split; [exact HD|]. split; [reflexivity|].
        inversion HR; subst; try congruence; [apply FD_nomem; auto|eapply FD_header; eauto|eapply FD_setup; eauto]. }
    apply is_ok_spec in EO. subst rc1.
    inversion HR as [|rc hd fi' hp' B1 B2 B3 B4|rc fi' ms lb' dk hp' B1 B2 B3 B4 B5|fi' ms lb' hp' B1 B2 B3 B4]; subst; try congruence.
    pose proof (header_result_ok_inv fi _ fi1 B2) as (_ & HL & _ & _ & _ & HI1 & HSD & HSF & HPX).
    pose proof (stream_data_ok fi HI) as HFO.
    match type of E with bind (scryptdec_file_copy M ?hpx e (Some ?C) fi1 fo) _ = _ =>
      assert (heap_ok hpx) as HHX by (unfold heap_ok; cbn [kh_live kh_next]; constructor; [cbn; lia|]; eapply Forall_impl; [|exact HH]; cbv beta; intros; lia);
      destruct (copy_ok M hpx e C fi1 fo HHX) as (rc & fi' & fo' & hp2 & EC & HC) end.
    { cbn [ck_dk]. apply keys_length. } { cbn [ck_dk]. apply keys_ok. } { cbn [ck_header]. apply bytes_ok_firstn, HFO. } { exact HI1. }
    { apply prefix_length in HPX. rewrite app_length in HPX. lia. }
    rewrite EC, bind_Ok in E. cbn [ck_dk ck_header] in HC. cbn [scryptdec_file_cookie_free ck_addr] in E.
    destruct (dec_file_result_copy lb e P passwd fi fo verbose force hp fi1 ms1 lb' rc fi' fo' hp2 HH B1 B2 B3 HC) as (hp3 & EF & HF).
    rewrite EF, bind_Ok in E. injection E as <-. cbn [oc_lib oc_heap oc_P oc_rc oc_val oc_msgs oc_dk fst snd]. auto.
  Qed.
  Lemma scryptdec_file_total lb hp e fi fo passwd P verbose force sst m rc :
    size_bits (m_szb M) -> bytes_ok passwd -> heap_ok hp -> input_ok fi -> N.of_nat (length (stream_data (no_errors fi))) < 2 ^ 64 -> all_zero P = true ->
    ((96 <= length (stream_data fi))%nat ->
     checkparams M cfg (lb_smix lb) (v_params e) (x_lim P) (Z.of_N (fh_logN (get_head (stream_data fi)))) (fh_r (get_head (stream_data fi)))
       (fh_p (get_head (stream_data fi))) verbose force = Ok (sst, m, rc)) ->
    all_ok (v_kdf2 e) ->
    exists o, scryptdec_file M cfg lb hp e fi fo passwd P verbose force = Ok o.
  Proof.
    intros Hs HPW HH HI HP HZ HCP H2. unfold scryptdec_file. rewrite HZ. cbn [assert_]. rewrite bind_Ok.
    destruct (prep_total M cfg lb hp e fi passwd P verbose force None sst m rc Hs HPW HH HI HZ HCP H2) as (o1 & EP). rewrite EP, bind_Ok.
    apply prep_inv in EP; auto. destruct EP as (_ & HD & HR).
    destruct o1 as [rc1 lb1 ms1 P1 dk1 hp1 [C1 fi1]]. cbn [oc_lib oc_heap oc_P oc_rc oc_val oc_msgs fst snd] in *.
    destruct (is_ok rc1) eqn:EO; cbn [negb]; [|eauto]. apply is_ok_spec in EO. subst rc1.
    inversion HR as [|rc0 hd fi' hp' B1 B2 B3 B4|rc0 fi' ms lb' dk hp' B1 B2 B3 B4 B5|fi' ms lb' hp' B1 B2 B3 B4]; subst; try congruence.
    pose proof (header_result_ok_inv fi _ fi1 B2) as (_ & HL & _ & _ & _ & HI1 & HSD & HSF & HPX).
    pose proof (stream_data_ok fi HI) as HFO.
    match goal with |- context [bind (scryptdec_file_copy M ?hpx e (Some ?C) fi1 fo) _] =>
      assert (heap_ok hpx) as HHX by (unfold heap_ok; cbn [kh_live kh_next]; constructor; [cbn; lia|]; eapply Forall_impl; [|exact HH]; cbv beta; intros; lia);
      destruct (copy_ok M hpx e C fi1 fo HHX) as (rc0 & fi' & fo' & hp2 & EC & HC) end.
    { cbn [ck_dk]. apply keys_length. } { cbn [ck_dk]. apply keys_ok. } { cbn [ck_header]. apply bytes_ok_firstn, HFO. } { exact HI1. }
    { apply prefix_length in HPX. rewrite app_length in HPX. lia. }
    rewrite EC, bind_Ok. cbn [ck_dk ck_header] in HC. cbn [scryptdec_file_cookie_free ck_addr].
    destruct (dec_file_result_copy lb e P passwd fi fo verbose force hp fi1 ms1 lb' rc0 fi' fo' hp2 HH B1 B2 B3 HC) as (hp3 & EF & HF).
    rewrite EF, bind_Ok. eauto.
  Qed.
End DecFile2.
