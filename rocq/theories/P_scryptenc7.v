(** Proofs about the scryptenc.c model: scryptenc_file. *)
From Verif Require Import Base SpecBytes SpecSHA SpecScrypt SpecScryptAPI SpecAES SpecDRBG SpecFormat SpecStream
  M_endian P_endian M_sha256_tr M_simd M_sha256_hw M_sha256 P_sha256 M_smix M_aes_hw M_aesctr P_aes P_aesctr P_scrypt P_scrypt_ref
  M_scrypt_sel P_scrypt_sel Prop_scrypt M_verify P_verify M_entropy P_entropy M_machine M_double M_memlimit M_cpuperf
  M_humansize P_humansize M_params M_stdio P_stdio M_scryptenc SpecScryptenc P_scryptenc P_scryptenc2 P_scryptenc3 P_scryptenc4 P_scryptenc5.
Local Opaque ENCBLOCK.

Section EncFile.
  Context (M : machine) (cfg : clk_cfg).

  (** One expanded key for [key] more than in [h], everything released zeroed. *)
  Definition heap_leak (key : bytes) (h h' : kheap) : Prop :=
    heap_ok h' /\ (exists k, key_rep (m_aes M) key k /\ kh_live h' = (kh_next h, Some (S_key k)) :: kh_live h) /\
    exists k, kh_released h' = repeat None k ++ kh_released h.

  (** After the set-up step: status, streams, heap. *)
  Inductive enc_file_tail (e : call_env) (passwd : bytes) (h : fhead) (fi : instream) (fo : outstream) (hp : kheap)
    : rcode -> instream -> outstream -> kheap -> Prop :=
  | ET_header fo' k : (k < 96)%nat -> o_err fo' = true -> o_data fo' = o_data fo ++ firstn k (fmt_96 kdf passwd h) ->
      enc_file_tail e passwd h fi fo hp SCRYPT_EWRFILE fi fo' hp
  | ET_aes rc fo' hp' : rc = aes_rc e -> (v_key_mem e = false \/ v_ctr_mem e = false) ->
      o_err fo' = o_err fo -> o_data fo' = o_data fo ++ fmt_96 kdf passwd h -> heap_clean hp hp' ->
      enc_file_tail e passwd h fi fo hp rc fi fo' hp'
  | ET_write data w fi' fo' hp' : v_key_mem e = true -> v_ctr_mem e = true -> o_err fo' = true -> prefix data (stream_data (no_errors fi)) ->
      prefix w (aes_ctr (key_enc kdf passwd h) 0 0 data) -> o_data fo' = o_data fo ++ fmt_96 kdf passwd h ++ w ->
      heap_leak (key_enc kdf passwd h) hp hp' ->
      enc_file_tail e passwd h fi fo hp SCRYPT_EWRFILE fi' fo' hp'
  | ET_read data fi' fo' hp' : v_key_mem e = true -> v_ctr_mem e = true -> o_err fo' = o_err fo -> i_err fi' = true -> stream_fails fi = true ->
      prefix data (stream_data (no_errors fi)) -> o_data fo' = o_data fo ++ fmt_body kdf passwd h data -> heap_clean hp hp' ->
      enc_file_tail e passwd h fi fo hp SCRYPT_ERDFILE fi' fo' hp'
  | ET_trailer k fi' fo' hp' : v_key_mem e = true -> v_ctr_mem e = true -> o_err fo' = true -> i_err fi' = false -> stream_fails fi = false ->
      (k < 32)%nat -> prefix (stream_data fi) (stream_data (no_errors fi)) ->
      o_data fo' = o_data fo ++ firstn (96 + length (stream_data fi) + k) (fmt_file kdf passwd h (stream_data fi)) -> heap_clean hp hp' ->
      enc_file_tail e passwd h fi fo hp SCRYPT_EWRFILE fi' fo' hp'
  | ET_ok fi' fo' hp' : v_key_mem e = true -> v_ctr_mem e = true -> o_err fo' = o_err fo -> i_err fi' = false -> stream_fails fi = false ->
      prefix (stream_data fi) (stream_data (no_errors fi)) ->
      o_data fo' = o_data fo ++ fmt_file kdf passwd h (stream_data fi) -> heap_clean hp hp' ->
      enc_file_tail e passwd h fi fo hp SCRYPT_OK fi' fo' hp'.

  Definition enc_file_rest (h : kheap) (e : call_env) (fi : instream) (fo : outstream) lb ms P header dk rc : res (outcome (instream * outstream)) :=
    if negb (is_ok rc) then dk <- zero_dk dk ;; Ok (mk_oc rc lb ms P dk h (fi, fo)) else
    key_hmac <- rd dk 32 32 ;;
    hctx <- HMAC_SHA256_Init (shw M) (jk M) (hmac_junk (jk M)) key_hmac ;;
    hctx <- HMAC_SHA256_Update (shw M) (jk M) hctx header ;;
    let '(ok, fo) := fwrite header fo in
    if negb ok then dk <- zero_dk dk ;; Ok (mk_oc SCRYPT_EWRFILE lb ms P dk h (fi, fo)) else
    ' (h, a) <- start_aes M e h dk ;;
    match a with
    | inl rc => dk <- zero_dk dk ;; Ok (mk_oc rc lb ms P dk h (fi, fo))
    | inr (ki, si, AES) =>
        ' (eof, AES, hctx, fi, fo) <- enc_loop M (in_size fi) AES hctx fi fo ;;
        h <- kh_set si (Some (S_stream AES)) h ;;
        if negb eof then
          h <- crypto_aesctr_free si h ;;
          dk <- zero_dk dk ;; Ok (mk_oc SCRYPT_EWRFILE lb ms P dk h (fi, fo))
        else
        h <- crypto_aesctr_free si h ;;
        h <- crypto_aes_key_free ki h ;;
        if ferror fi then dk <- zero_dk dk ;; Ok (mk_oc SCRYPT_ERDFILE lb ms P dk h (fi, fo)) else
        ' (hbuf, _) <- HMAC_SHA256_Final (shw M) (jk M) hctx ;;
        let '(ok, fo) := fwrite hbuf fo in
        dk <- zero_dk dk ;;
        Ok (mk_oc (if ok then SCRYPT_OK else SCRYPT_EWRFILE) lb ms P dk h (fi, fo))
    end.
  Lemma scryptenc_file_eq lb h e fi fo passwd P verbose force :
    scryptenc_file M cfg lb h e fi fo passwd P verbose force =
    (_ <- assert_ (all_zero P || none_zero P) ;;
     ' (lb, ms, P, header, dk, rc) <-
       scryptenc_setup M cfg lb e P (scratch_bytes (jk M) 96) (scratch_bytes (jk M) 64) passwd verbose force ;;
     enc_file_rest h e fi fo lb ms P header dk rc).
  Proof. reflexivity. Qed.
  Lemma enc_file_rest_fail h e fi fo lb ms P header dk rc : rc <> SCRYPT_OK -> length dk = 64%nat ->
    enc_file_rest h e fi fo lb ms P header dk rc = Ok (mk_oc rc lb ms P (repeat 0 64) h (fi, fo)).
  Proof. intros H1 H2. unfold enc_file_rest. apply is_ok_false in H1. rewrite H1. cbn [negb]. rewrite zero_dk_ok by exact H2. reflexivity. Qed.

  Lemma enc_file_rest_ok hp e fi fo lb ms P passwd h :
    heap_ok hp -> fhead_ok h -> input_ok fi -> N.of_nat (length (stream_data (no_errors fi))) < 2 ^ 64 ->
    exists rc hp' fi' fo', enc_file_rest hp e fi fo lb ms P (fmt_96 kdf passwd h) (fmt_keys kdf passwd h) SCRYPT_OK
       = Ok (mk_oc rc lb ms P (repeat 0 64) hp' (fi', fo')) /\ enc_file_tail e passwd h fi fo hp rc fi' fo' hp'.
  Proof.
    intros HH Hh HI HP. unfold enc_file_rest. cbn [is_ok rcode_eqb negb].
    pose proof Hh as (_ & _ & _ & _ & HSL & HSO). pose proof (fmt_96_length kdf passwd h HSL) as L96.
    assert (bytes_ok (fmt_96 kdf passwd h)) as O96 by (apply fmt_96_ok; [destruct Hh; lia|exact HSO]).
    rewrite key_hmac_rd, bind_Ok.
    destruct (hmac_junk_init (shw M) (jk M) (key_hmac kdf passwd h) (key_hmac_ok passwd h)) as (c1 & -> & HC1). rewrite bind_Ok.
    destruct (HMAC_Update_correct (shw M) (jk M) c1 _ [] (fmt_96 kdf passwd h) HC1 O96) as (c2 & -> & HC2). rewrite bind_Ok.
    cbn [app] in HC2.
    destruct (fwrite (fmt_96 kdf passwd h) fo) as [ok fo1] eqn:EW. apply fwrite_cases in EW.
    destruct EW as [(-> & W1 & W2)|(-> & W1 & k & W2 & W3)]; cbn [negb].
    2:{ rewrite zero_dk_ok, bind_Ok by apply keys_length. do 4 eexists. split; [reflexivity|]. apply (ET_header _ _ _ _ _ _ _ k); [lia|assumption..]. }
    destruct (start_aes_cases M e hp (fmt_keys kdf passwd h) (keys_length passwd h) (keys_ok passwd h) HH)
      as [(K1 & ->)|[(K1 & K2 & ->)|(K1 & K2 & key & AES & -> & HK & HS)]]; rewrite bind_Ok.
    - rewrite zero_dk_ok, bind_Ok by apply keys_length. do 4 eexists. split; [reflexivity|].
      apply ET_aes; auto; [unfold aes_rc; rewrite K1; reflexivity|apply heap_clean_refl, HH].
    - rewrite zero_dk_ok, bind_Ok by apply keys_length. do 4 eexists. split; [reflexivity|].
      apply ET_aes; auto; [unfold aes_rc; rewrite K1; reflexivity|apply (heap_clean_mk hp _ 1); [exact HH|lia]].
    - change (firstn 32 (fmt_keys kdf passwd h)) with (key_enc kdf passwd h) in *.
      destruct (enc_loop_ok M (key_hmac kdf passwd h) (key_enc kdf passwd h) (in_size fi) AES c2 fi fo1 (fmt_96 kdf passwd h) 0
        (key_enc_ok passwd h) (or_intror (key_enc_length passwd h)) HS HC2 HI ltac:(lia) ltac:(lia))
        as (eof & AES' & hctx' & fi' & fo' & data & w & -> & R0 & R1 & R2 & R3 & R4 & R5). rewrite bind_Ok.
      pose proof (heap_fresh hp (kh_next hp) HH ltac:(lia)) as F0.
      assert (fresh (S (kh_next hp)) ((kh_next hp, Some (S_key key)) :: kh_live hp)) as F1.
      { constructor; [cbn; lia|]. apply heap_fresh; [exact HH|lia]. }
      rewrite kh_set_head, bind_Ok by exact F1.
      destruct eof; cbn [negb].
      2:{ unfold crypto_aesctr_free. rewrite zero_free_head, bind_Ok by exact F1.
          rewrite zero_dk_ok, bind_Ok by apply keys_length. do 4 eexists. split; [reflexivity|].
          apply (ET_write _ _ _ _ _ _ data w); auto.
          - rewrite R1, W1, <- app_assoc. reflexivity.
          - split; [|split].
            + unfold heap_ok. cbn [kh_live kh_next]. constructor; [cbn; lia|]. eapply Forall_impl; [|exact HH]. cbv beta. intros; lia.
            + exists key. split; [exact HK|reflexivity].
            + exists 1%nat. reflexivity. }
      destruct (R4 eq_refl) as (Ew & T2 & T3 & T4 & T5). subst w.
      unfold crypto_aesctr_free, crypto_aes_key_free. rewrite zero_free_head, bind_Ok by exact F1. rewrite zero_free_head, bind_Ok by exact F0.
      unfold ferror. rewrite T4. destruct (stream_fails fi) eqn:EF.
      + rewrite zero_dk_ok, bind_Ok by apply keys_length. do 4 eexists. split; [reflexivity|].
        apply (ET_read _ _ _ _ _ _ data); auto; try congruence.
        * rewrite R1, W1, <- app_assoc. reflexivity.
        * apply (heap_clean_mk hp _ 2); [exact HH|lia].
      + specialize (T5 eq_refl). subst data.
        change (fmt_96 kdf passwd h ++ aes_ctr (key_enc kdf passwd h) 0 0 (stream_data fi)) with (fmt_body kdf passwd h (stream_data fi)) in T2.
        rewrite (HMAC_Final_correct _ _ _ _ _ T2), bind_Ok.
        destruct (fwrite (hmac (key_hmac kdf passwd h) (fmt_body kdf passwd h (stream_data fi))) fo') as [ok2 fo2] eqn:EW2.
        apply fwrite_cases in EW2. rewrite zero_dk_ok, bind_Ok by apply keys_length. do 4 eexists. split; [reflexivity|].
        pose proof (fmt_body_length passwd h (stream_data fi) HSL) as LB.
        destruct EW2 as [(-> & Y1 & Y2)|(-> & Y1 & k & Y2 & Y3)].
        * apply ET_ok; auto; try congruence.
          -- unfold fmt_file at 1, fmt_body at 1. rewrite Y1, R1, W1, <- !app_assoc. reflexivity.
          -- apply (heap_clean_mk hp _ 2); [exact HH|lia].
        * rewrite hmac_length in Y2. apply (ET_trailer _ _ _ _ _ _ k); auto; try congruence.
          -- rewrite Y3, R1, W1. unfold fmt_file. rewrite firstn_app.
             rewrite (firstn_all2 (fmt_body _ _ _ _)) by lia. rewrite LB.
             replace (96 + length (stream_data fi) + k - (length (stream_data fi) + 96))%nat with k by lia.
             unfold fmt_body at 2. rewrite <- !app_assoc. reflexivity.
          -- apply (heap_clean_mk hp _ 2); [exact HH|lia].
  Qed.

  Inductive enc_file_result (lb : lib) (e : call_env) (passwd : bytes) (P : xparams) (fi : instream) (fo : outstream) (hp : kheap)
    : rcode -> xparams -> instream -> outstream -> kheap -> Prop :=
  | EF_setup rc P' : rc <> SCRYPT_OK -> In rc enc_codes -> enc_file_result lb e passwd P fi fo hp rc P' fi fo hp
  | EF_tail h rc fi' fo' hp' : fhead_ok h -> computable M h -> salted M e lb h -> enc_file_tail e passwd h fi fo hp rc fi' fo' hp' ->
      enc_file_result lb e passwd P fi fo hp rc (P_of (x_lim P) h) fi' fo' hp'.
  Lemma scryptenc_file_inv lb hp e fi fo passwd P verbose force o :
    size_bits (m_szb M) -> xp_ok P -> bytes_ok passwd -> env_bytes (v_ent e) -> drbg_inv (lb_drbg lb) -> heap_ok hp ->
    input_ok fi -> N.of_nat (length (stream_data (no_errors fi))) < 2 ^ 64 ->
    scryptenc_file M cfg lb hp e fi fo passwd P verbose force = Ok o ->
    (all_zero P = true \/ none_zero P = true) /\ drbg_inv (lb_drbg (oc_lib o)) /\
    oc_dk o = repeat 0 64 /\ x_lim (oc_P o) = x_lim P /\ (x_logN P <> 0%Z -> oc_P o = P) /\
    enc_file_result lb e passwd P fi fo hp (oc_rc o) (oc_P o) (fst (oc_val o)) (snd (oc_val o)) (oc_heap o).
  Proof.
    intros Hs HXP HPW HE HD HH HI HP E. rewrite scryptenc_file_eq in E.
    apply bind_inv in E. destruct E as (u & EA & E).
    split. { unfold assert_ in EA. destruct (all_zero P), (none_zero P); auto; discriminate. }
    clear u EA. apply bind_inv in E. destruct E as ([[[[[lb1 ms] P1] hd] dk] rc] & ES & E).
    apply scryptenc_setup_inv in ES; auto using scratch_bytes_ok, scratch_bytes_length.
    destruct ES as (A1 & A2 & A3 & A4 & A5 & A6).
    destruct (is_ok rc) eqn:EO.
    2:{ apply is_ok_false in EO. rewrite enc_file_rest_fail in E by assumption. injection E as <-. cbn [oc_lib oc_dk oc_heap oc_P oc_rc oc_val fst snd].
        split; [exact A1|]. split; [reflexivity|]. split; [exact A3|]. split; [exact A4|]. apply EF_setup; auto. }
    apply is_ok_spec in EO. subst rc. destruct (A6 eq_refl) as (h & d & B1 & B2 & B3 & B4 & B5 & B6). subst P1 dk hd.
    destruct (enc_file_rest_ok hp e fi fo lb1 ms (P_of (x_lim P) h) passwd h HH B1 HI HP) as (rc & hp' & fi' & fo' & E2 & HT).
    rewrite E2 in E. assert (o = mk_oc rc lb1 ms (P_of (x_lim P) h) (repeat 0 64) hp' (fi', fo')) as -> by congruence.
    cbn [oc_lib oc_dk oc_heap oc_P oc_rc oc_val fst snd]. split; [exact A1|]. split; [reflexivity|]. split; [reflexivity|]. split; [exact A4|].
    eapply EF_tail; eauto. exists d. exact B4.
  Qed.
  (** The buffer and the stream form share their set-up step. *)
  Lemma enc_same_setup lb hp e data outbuf fi fo passwd P verbose force :
    size_bits (m_szb M) -> xp_ok P -> bytes_ok passwd -> env_bytes (v_ent e) -> drbg_inv (lb_drbg lb) -> heap_ok hp ->
    bytes_ok data -> N.of_nat (length data) < 2 ^ 64 -> (length data + 128 <= length outbuf)%nat ->
    input_ok fi -> N.of_nat (length (stream_data (no_errors fi))) < 2 ^ 64 ->
    (exists o, scryptenc_buf M cfg lb hp e data outbuf passwd P verbose force = Ok o) ->
    exists o, scryptenc_file M cfg lb hp e fi fo passwd P verbose force = Ok o.
  Proof.
    intros Hs HXP HPW HE HD HH HDO HDL HOB HI HP (o & E). rewrite scryptenc_buf_eq in E. rewrite scryptenc_file_eq.
    apply bind_inv in E. destruct E as (u & -> & E). rewrite bind_Ok.
    apply bind_inv in E. destruct E as ([[[[[lb1 ms] P1] hd] dk] rc] & ES & E). rewrite ES, bind_Ok.
    apply scryptenc_setup_inv in ES; auto using scratch_bytes_ok, scratch_bytes_length.
    destruct ES as (A1 & A2 & A3 & A4 & A5 & A6).
    destruct (is_ok rc) eqn:EO.
    2:{ apply is_ok_false in EO. rewrite enc_file_rest_fail by assumption. eauto. }
    apply is_ok_spec in EO. subst rc. destruct (A6 eq_refl) as (h & d & B1 & B2 & B3 & B4 & B5 & B6). subst P1 dk hd.
    destruct (enc_file_rest_ok hp e fi fo lb1 ms (P_of (x_lim P) h) passwd h HH B1 HI HP) as (rc & hp' & fi' & fo' & -> & HT). eauto.
  Qed.
End EncFile.
