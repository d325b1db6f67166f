(** Proofs about the scryptenc.c model: buffer and stream forms compared. *)
From Verif Require Import Base SpecBytes SpecSHA SpecScrypt SpecScryptAPI SpecAES SpecDRBG SpecFormat SpecStream
  M_endian P_endian M_sha256_tr M_simd M_sha256_hw M_sha256 P_sha256 M_smix M_aes_hw M_aesctr P_aes P_aesctr P_scrypt P_scrypt_ref
  M_scrypt_sel P_scrypt_sel Prop_scrypt M_verify P_verify M_entropy P_entropy M_machine M_double M_memlimit M_cpuperf
  M_humansize P_humansize M_params M_stdio P_stdio M_scryptenc SpecScryptenc P_scryptenc P_scryptenc2 P_scryptenc3 P_scryptenc4 P_scryptenc5
  P_scryptenc6 P_scryptenc7 P_scryptenc8 P_scryptenc9.
Local Opaque ENCBLOCK.

Lemma fwrite_good d s ok s' : out_good s -> fwrite d s = (ok, s') -> ok = true /\ out_good s' /\ o_err s' = o_err s.
Proof.
  unfold out_good, fwrite. intros HG H. destruct (o_plan s) as [|x t] eqn:E.
  - injection H as <- <-. auto.
  - inversion HG; subst. injection H as <- <-. auto.
Qed.
Lemma delivered_ok data fi : bytes_ok data -> delivered data fi ->
  input_ok fi /\ stream_data fi = data /\ stream_fails fi = false /\ stream_data (no_errors fi) = data.
Proof.
  intros HO HD. destruct (delivered_data data fi HD) as [A B]. destruct HD as (C1 & C2 & C3).
  split; [|split; [exact A|split; [exact B|]]].
  - unfold input_ok. rewrite Forall_forall. intros p Hp. unfold bytes_ok. rewrite Forall_forall. intros x Hx.
    unfold bytes_ok in HO. rewrite Forall_forall in HO. apply HO. rewrite <- C3. apply in_concat. exists (fst p). split; [|exact Hx].
    apply in_map. exact Hp.
  - unfold stream_data in *. unfold no_errors. cbn [i_pieces]. rewrite <- A. f_equal.
    rewrite <- (map_id (i_pieces fi)) at 2. apply map_ext_in. intros [d x] Hp. rewrite Forall_forall in C2. destruct (C2 _ Hp) as [_ E]. cbn in *. congruence.
Qed.

Section Good.
  Context (M : machine) (cfg : clk_cfg).
  Lemma enc_loop_good : forall fuel AES hctx fi fo eof AES' hctx' fi' fo', out_good fo ->
    enc_loop M fuel AES hctx fi fo = Ok (eof, AES', hctx', fi', fo') -> eof = true /\ out_good fo' /\ o_err fo' = o_err fo.
  Proof.
    induction fuel as [|f IH]; intros AES hctx fi fo eof AES' hctx' fi' fo' HG E; cbn [enc_loop] in E; [discriminate|].
    destruct (fread1 ENCBLOCK fi) as [buf fi1]. destruct (Nat.eqb (length buf) 0).
    { injection E as <- <- <- <- <-. auto. }
    apply bind_inv in E. destruct E as ([b A] & _ & E). apply bind_inv in E. destruct E as (c & _ & E).
    destruct (fwrite b fo) as [ok fo1] eqn:EW. apply fwrite_good in EW; [|exact HG]. destruct EW as (-> & HG1 & HE1). cbn [negb] in E.
    apply IH in E; [|exact HG1]. destruct E as (A1 & A2 & A3). split; [exact A1|]. split; [exact A2|]. congruence.
  Qed.
  Lemma dec_loop_good : forall fuel AES hctx have fi fo eof AES' hctx' buf fi' fo', out_good fo ->
    dec_loop M fuel AES hctx have fi fo = Ok (eof, AES', hctx', buf, fi', fo') -> eof = true /\ out_good fo' /\ o_err fo' = o_err fo.
  Proof.
    induction fuel as [|f IH]; intros AES hctx have fi fo eof AES' hctx' buf fi' fo' HG E; cbn [dec_loop] in E; [discriminate|].
    destruct (fread1 _ fi) as [d fi1]. destruct (Nat.eqb (length d) 0).
    { injection E as <- <- <- <- <- <-. auto. }
    cbv zeta in E. destruct (Nat.leb _ 32); [eauto|].
    apply bind_inv in E. destruct E as (a & _ & E). apply bind_inv in E. destruct E as (c & _ & E). apply bind_inv in E. destruct E as ([b A] & _ & E).
    destruct (fwrite b fo) as [ok fo1] eqn:EW. apply fwrite_good in EW; [|exact HG]. destruct EW as (-> & HG1 & HE1). cbn [negb] in E.
    apply bind_inv in E. destruct E as (tl & _ & E).
    apply IH in E; [|exact HG1]. destruct E as (A1 & A2 & A3). split; [exact A1|]. split; [exact A2|]. congruence.
  Qed.
  Lemma enc_file_rest_good hp e fi fo lb ms P header dk rc o : out_good fo ->
    enc_file_rest M hp e fi fo lb ms P header dk rc = Ok o -> o_err (snd (oc_val o)) = o_err fo.
  Proof.
    intros HG E. unfold enc_file_rest in E. destruct (negb (is_ok rc)).
    { apply bind_inv in E. destruct E as (d & _ & E). injection E as <-. reflexivity. }
    apply bind_inv in E. destruct E as (k & _ & E). apply bind_inv in E. destruct E as (c1 & _ & E). apply bind_inv in E. destruct E as (c2 & _ & E).
    destruct (fwrite header fo) as [ok fo1] eqn:EW. apply fwrite_good in EW; [|exact HG]. destruct EW as (-> & HG1 & HE1). cbn [negb] in E.
    apply bind_inv in E. destruct E as ([h a] & _ & E). destruct a as [rc1|[[ki si] AES]].
    { apply bind_inv in E. destruct E as (d & _ & E). injection E as <-. exact HE1. }
    apply bind_inv in E. destruct E as ([[[[eof A] c] fi2] fo2] & EL & E). apply enc_loop_good in EL; [|exact HG1]. destruct EL as (-> & HG2 & HE2).
    apply bind_inv in E. destruct E as (h1 & _ & E). cbn [negb] in E. apply bind_inv in E. destruct E as (h2 & _ & E). apply bind_inv in E. destruct E as (h3 & _ & E).
    destruct (ferror fi2).
    { apply bind_inv in E. destruct E as (d & _ & E). injection E as <-. cbn [oc_val snd]. congruence. }
    apply bind_inv in E. destruct E as ([hb c3] & _ & E).
    destruct (fwrite hb fo2) as [ok fo3] eqn:EW. apply fwrite_good in EW; [|exact HG2]. destruct EW as (-> & HG3 & HE3).
    apply bind_inv in E. destruct E as (d & _ & E). injection E as <-. cbn [oc_val snd]. congruence.
  Qed.
  Lemma copy_good hp e C fi fo rc fi' fo' hp' : out_good fo ->
    scryptdec_file_copy M hp e C fi fo = Ok (rc, fi', fo', hp') -> o_err fo' = o_err fo.
  Proof.
    intros HG E. unfold scryptdec_file_copy in E. destruct C as [C|]; [|discriminate].
    apply bind_inv in E. destruct E as (k & _ & E). apply bind_inv in E. destruct E as (c1 & _ & E). apply bind_inv in E. destruct E as (c2 & _ & E).
    apply bind_inv in E. destruct E as ([h a] & _ & E). destruct a as [rc1|[[ki si] AES]].
    { injection E as <- <- <- <-. reflexivity. }
    apply bind_inv in E. destruct E as ([[[[[eof A] c] b] fi2] fo2] & EL & E). apply dec_loop_good in EL; [|exact HG]. destruct EL as (-> & HG2 & HE2).
    apply bind_inv in E. destruct E as (h1 & _ & E). cbn [negb] in E. apply bind_inv in E. destruct E as (h2 & _ & E). apply bind_inv in E. destruct E as (h3 & _ & E).
    destruct (ferror fi2); [injection E as <- <- <- <-; exact HE2|].
    destruct (Nat.ltb _ 32); [injection E as <- <- <- <-; exact HE2|].
    apply bind_inv in E. destruct E as ([hb c3] & _ & E). apply bind_inv in E. destruct E as (v & _ & E). injection E as <- <- <- <-. exact HE2.
  Qed.
  Lemma enc_file_good lb hp e fi fo passwd P verbose force o : out_good fo ->
    scryptenc_file M cfg lb hp e fi fo passwd P verbose force = Ok o -> o_err (snd (oc_val o)) = o_err fo.
  Proof.
    intros HG E. rewrite scryptenc_file_eq in E. apply bind_inv in E. destruct E as (u & _ & E).
    apply bind_inv in E. destruct E as ([[[[[lb1 ms] P1] hd] dk] rc] & _ & E). eapply enc_file_rest_good; eauto.
  Qed.
  Lemma dec_file_good lb hp e fi fo passwd P verbose force o : out_good fo ->
    scryptdec_file M cfg lb hp e fi fo passwd P verbose force = Ok o -> o_err (snd (oc_val o)) = o_err fo.
  Proof.
    intros HG E. unfold scryptdec_file in E. apply bind_inv in E. destruct E as (u & _ & E).
    apply bind_inv in E. destruct E as (o1 & _ & E). destruct (oc_val o1) as [C fi1].
    destruct (negb (is_ok (oc_rc o1))); [injection E as <-; reflexivity|].
    apply bind_inv in E. destruct E as ([[[rc fi2] fo2] h2] & EC & E). apply copy_good in EC; [|exact HG].
    apply bind_inv in E. destruct E as (h3 & _ & E). injection E as <-. exact EC.
  Qed.

  (** *** Same set-up, same everything *)
  Lemma enc_forms_agree lb hp e data outbuf fi fo passwd P verbose force ob :
    size_bits (m_szb M) -> xp_ok P -> bytes_ok passwd -> env_bytes (v_ent e) -> drbg_inv (lb_drbg lb) -> heap_ok hp ->
    bytes_ok data -> N.of_nat (length data) < 2 ^ 64 -> (length data + 128 <= length outbuf)%nat ->
    delivered data fi -> out_good fo -> o_err fo = false ->
    scryptenc_buf M cfg lb hp e data outbuf passwd P verbose force = Ok ob ->
    exists of, scryptenc_file M cfg lb hp e fi fo passwd P verbose force = Ok of /\
      oc_rc of = oc_rc ob /\ oc_lib of = oc_lib ob /\ oc_msgs of = oc_msgs ob /\ oc_P of = oc_P ob /\
      (oc_rc ob = SCRYPT_OK -> o_data (snd (oc_val of)) = o_data fo ++ firstn (length data + 128) (oc_val ob)).
  Proof.
    intros Hs HXP HPW HE HD HH HDO HDL HOB HDE HG HER E.
    destruct (delivered_ok data fi HDO HDE) as (HI & HSD & HSF & HSN).
    assert (N.of_nat (length (stream_data (no_errors fi))) < 2 ^ 64) as HP by (rewrite HSN; exact HDL).
    rewrite scryptenc_buf_eq in E. rewrite scryptenc_file_eq.
    apply bind_inv in E. destruct E as (u & -> & E). rewrite bind_Ok.
    apply bind_inv in E. destruct E as ([[[[[lb1 ms] P1] hd] dk] rc] & ES & E). rewrite ES, bind_Ok.
    apply scryptenc_setup_inv in ES; auto using scratch_bytes_ok, scratch_bytes_length.
    destruct ES as (A1 & A2 & A3 & A4 & A5 & A6).
    destruct (is_ok rc) eqn:EO.
    2:{ apply is_ok_false in EO. rewrite enc_file_rest_fail by assumption. rewrite enc_buf_rest_fail in E by assumption.
        injection E as <-. eexists. split; [reflexivity|]. cbn [oc_rc oc_lib oc_msgs oc_P oc_val]. repeat (split; [reflexivity|]). congruence. }
    apply is_ok_spec in EO. subst rc. destruct (A6 eq_refl) as (h & d & B1 & B2 & B3 & B4 & B5 & B6). subst P1 dk hd.
    destruct (enc_buf_rest_ok M hp e data outbuf lb1 ms (P_of (x_lim P) h) passwd h HH B1 HDO HDL HOB) as (rc & hp' & out & E2 & HC & HR).
    rewrite E2 in E. assert (ob = mk_oc rc lb1 ms (P_of (x_lim P) h) (repeat 0 64) hp' out) as -> by congruence. clear E.
    destruct (enc_file_rest_ok M hp e fi fo lb1 ms (P_of (x_lim P) h) passwd h HH B1 HI HP) as (rcf & hpf & fi' & fo' & EF & HT).
    rewrite EF. eexists. split; [reflexivity|]. cbn [oc_rc oc_lib oc_msgs oc_P oc_val snd].
    apply enc_file_rest_good in EF; [|exact HG]. cbn [oc_val snd] in EF. rewrite HER in EF.
    destruct HR as [(-> & HF & ->)|(-> & K1 & K2 & ->)].
    - inversion HT; subst; try (destruct HF; congruence); try congruence.
      repeat (split; [reflexivity|]). unfold aes_rc. destruct (v_key_mem e); discriminate.
    - inversion HT; subst; try congruence; try (destruct H0; congruence); try (destruct H1; congruence).
      repeat (split; [reflexivity|]). intros _.
      rewrite firstn_app_len; [assumption|]. symmetry. apply fmt_file_length. apply B1.
  Qed.

  (** *** Decryption: the set-up step only looks at the first 96 bytes *)
  Lemma rd_firstn {A} (f : list A) o n m : (o + n <= m)%nat -> (m <= length f)%nat -> rd (firstn m f) o n = rd f o n.
  Proof.
    intros H1 H2. rewrite !rd_ok by (rewrite ?firstn_length; lia). rewrite sub_firstn by exact H1. reflexivity.
  Qed.
  Lemma dec_setup_96 lb e P f dk passwd verbose force : (96 <= length f)%nat ->
    scryptdec_setup M cfg lb e P (firstn 96 f) dk passwd verbose force = scryptdec_setup M cfg lb e P f dk passwd verbose force.
  Proof.
    intros HL. unfold scryptdec_setup. rewrite !(rd_firstn f) by lia. reflexivity.
  Qed.

  (** The stream form, set-up and rest. *)
  Definition dec_file_rest (hp : kheap) (e : call_env) (fi : instream) (fo : outstream) (header : bytes) lb ms P dk rc : res (outcome (instream * outstream)) :=
    if negb (is_ok rc) then Ok (mk_oc rc lb ms P [] (mk_kh (S (kh_next hp)) (kh_live hp) (None :: kh_released hp)) (fi, fo)) else
    ' (rc, fi, fo, h) <- scryptdec_file_copy M (mk_kh (S (kh_next hp)) ((kh_next hp, Some (S_cookie dk)) :: kh_live hp) (kh_released hp)) e
                           (Some (mk_cookie (kh_next hp) header dk)) fi fo ;;
    h <- zero_free (kh_next hp) h ;;
    Ok (mk_oc rc lb ms P [] h (fi, fo)).
  Lemma scryptdec_file_eq lb hp e fi fo passwd P verbose force rc hd fi' : heap_ok hp -> v_cookie_mem e = true ->
    load_header fi = (rc, hd, fi') ->
    scryptdec_file M cfg lb hp e fi fo passwd P verbose force =
    (_ <- assert_ (all_zero P) ;;
     if negb (is_ok rc) then Ok (mk_oc rc lb [] P [] (mk_kh (S (kh_next hp)) (kh_live hp) (None :: kh_released hp)) (fi', fo)) else
     ' (lb, ms, P, dk, rc) <- scryptdec_setup M cfg lb e P hd (scratch_bytes (jk M) 64) passwd verbose force ;;
     dec_file_rest hp e fi' fo hd lb ms P dk rc).
  Proof.
    intros HH HCM EL. unfold scryptdec_file, scryptdec_file_prep. rewrite HCM, EL. cbn [negb kh_alloc].
    pose proof (heap_fresh hp (kh_next hp) HH ltac:(lia)) as F0.
    unfold assert_. destruct (all_zero P); [|reflexivity]. rewrite !bind_Ok.
    destruct (is_ok rc) eqn:EO; cbn [negb].
    2:{ rewrite zero_free_head, !bind_Ok by exact F0. cbn [oc_val oc_rc oc_lib oc_msgs oc_P oc_heap]. rewrite EO. reflexivity. }
    destruct (scryptdec_setup M cfg lb e P hd (scratch_bytes (jk M) 64) passwd verbose force) as [[[[[lb1 ms] P1] dk] rc1]| |]; try reflexivity.
    rewrite !bind_Ok. rewrite kh_set_head, !bind_Ok by exact F0. unfold dec_file_rest.
    destruct (is_ok rc1) eqn:EO1; cbn [negb].
    2:{ rewrite zero_free_head, !bind_Ok by exact F0. cbn [oc_val oc_rc oc_lib oc_msgs oc_P oc_heap]. rewrite EO1. reflexivity. }
    rewrite !bind_Ok. cbn [oc_val oc_rc oc_lib oc_msgs oc_P oc_heap is_ok rcode_eqb negb scryptdec_file_cookie_free ck_addr]. reflexivity.
  Qed.

  Lemma dec_forms_agree lb hp e f outbuf outlen fi fo passwd P verbose force ob :
    size_bits (m_szb M) -> bytes_ok passwd -> heap_ok hp -> bytes_ok f -> N.of_nat (length f) < 2 ^ 64 ->
    (length f - 128 <= length outbuf)%nat ->
    delivered f fi -> out_good fo -> o_err fo = false -> v_cookie_mem e = true ->
    (length f < 96 \/ 128 <= length f)%nat ->
    scryptdec_buf M cfg lb hp e f outbuf outlen passwd P verbose force = Ok ob ->
    exists of, scryptdec_file M cfg lb hp e fi fo passwd P verbose force = Ok of /\
      oc_rc of = oc_rc ob /\ oc_lib of = oc_lib ob /\ oc_msgs of = oc_msgs ob /\ oc_P of = oc_P ob /\
      (oc_rc ob = SCRYPT_OK -> o_data (snd (oc_val of)) = o_data fo ++ firstn (length f - 128) (fst (oc_val ob))).
  Proof.
    intros Hs HPW HH HFO HFL HOB HDE HG HER HCM HLL E.
    destruct (delivered_ok f fi HFO HDE) as (HI & HSD & HSF & HSN).
    rewrite scryptdec_buf_cases in E by exact HFO.
    destruct (load_header_ok fi HI) as (rc & hd & fi' & EL & HR).
    rewrite (scryptdec_file_eq lb hp e fi fo passwd P verbose force rc hd fi' HH HCM EL). clear EL.
    apply bind_inv in E. destruct E as (u & EA & E). rewrite EA, bind_Ok. clear u EA.
    pose proof HR as HR0. inversion HR as [fi1 L S1 S2 S3 S4 S5 S6 S7|fi1 L|fi1 L S1|fi1 L S1 S2|fi1 L S1 S2]; subst rc hd fi1; rewrite ?HSF, ?HSD in *; cbn [is_ok rcode_eqb negb].
    - assert (128 <= length f)%nat as HL by lia. clear HLL L.
      rewrite (proj2 (Nat.ltb_ge _ 7)) in E by lia. rewrite (proj2 (Nat.ltb_ge _ 128)) in E by lia.
      rewrite S1, list_eqb_refl, S2, N.eqb_refl in E. cbn [negb] in E. rewrite dec_setup_96 by lia.
      apply bind_inv in E. destruct E as ([[[[lb1 ms] P1] dk] rc] & ES & E). rewrite ES, bind_Ok.
      apply scryptdec_setup_inv in ES; auto using scratch_bytes_ok, scratch_bytes_length; [|lia].
      destruct ES as (A1 & A2 & A3 & A4). unfold dec_file_rest.
      destruct (is_ok rc) eqn:EO; cbn [negb].
      2:{ apply is_ok_false in EO. rewrite dec_buf_rest_fail in E by assumption. injection E as <-. eexists. split; [reflexivity|].
          cbn [oc_rc oc_lib oc_msgs oc_P oc_val]. repeat (split; [reflexivity|]). congruence. }
      apply is_ok_spec in EO. subst rc.
      assert (dk = fmt_keys kdf passwd (get_head f)) as -> by (inversion A4; auto; congruence).
      destruct (dec_buf_rest_ok M hp e f outbuf outlen lb1 ms P1 passwd HH HFO HL HFL HOB) as (rc & hp' & out & E2 & HC & HRR).
      rewrite E2 in E. assert (ob = mk_oc rc lb1 ms P1 (repeat 0 64) hp' out) as -> by congruence. clear E E2.
      set (hpx := mk_kh (S (kh_next hp)) ((kh_next hp, Some (S_cookie (fmt_keys kdf passwd (get_head f)))) :: kh_live hp) (kh_released hp)).
      assert (heap_ok hpx) as HHX by (unfold heap_ok, hpx; cbn [kh_live kh_next]; constructor; [cbn; lia|]; eapply Forall_impl; [|exact HH]; cbv beta; intros; lia).
      destruct (copy_ok M hpx e (mk_cookie (kh_next hp) (firstn 96 f) (fmt_keys kdf passwd (get_head f))) fi' fo HHX) as (rcf & fi2 & fo2 & hp2 & EC & HCR).
      { cbn [ck_dk]. apply keys_length. } { cbn [ck_dk]. apply keys_ok. } { cbn [ck_header]. apply bytes_ok_firstn, HFO. } { exact S4. }
      { apply prefix_length in S7. rewrite app_length, HSN in S7. lia. }
      rewrite EC, bind_Ok. apply copy_good in EC; [|exact HG]. cbn [ck_dk ck_header] in HCR.
      rewrite <- HSD in A4, HCR. rewrite <- HSD in HR0. unfold hpx in HCR. rewrite <- HSD in HCR at 1.
      destruct (dec_file_result_copy M cfg lb e P passwd fi fo verbose force hp fi' ms lb1 rcf fi2 fo2 hp2 HH HCM HR0 A4 HCR) as (hp3 & EF & HF).
      rewrite EF, bind_Ok. eexists. split; [reflexivity|]. cbn [oc_rc oc_lib oc_msgs oc_P oc_val snd fst].
      inversion HCR as [rc0 hp4 B1 B2 B3|ct hold w fi0 fo0 hp4 B1 B2 B3 B4 B5 B6 B7 B8|ct hold fi0 fo0 hp4 B1 B2 B3 B4 B5 B6 B7 B8 B9|fi0 fo0 hp4 B1 B2 B3 B4 B5 B6 B7 B8|rc0 fi0 fo0 hp4 B1 B2 B3 B4 B5 B6 B7 B8 B9]; subst rcf; try congruence.
      + destruct HRR as [(-> & _ & _)|(K1 & K2 & _)]; [|destruct B2; congruence].
        repeat (split; [reflexivity|]). unfold aes_rc. destruct (v_key_mem e); discriminate.
      + rewrite S5, skipn_length in B6. lia.
      + destruct HRR as [(_ & HX & _)|(K1 & K2 & HX & ->)]; [destruct HX; congruence|].
        rewrite S5 in B7, B8. rewrite skipn_length in B7, B8. rewrite HSD in B7, B8.
        replace (length f - 96 - 32)%nat with (length f - 128)%nat in B7, B8 by lia.
        change (firstn (length f - 128) (skipn 96 f)) with (sub f 96 (length f - 128)) in B7, B8.
        rewrite skipn_skipn in B8. replace (length f - 128 + 96)%nat with (length f - 32)%nat in B8 by lia.
        assert (firstn 96 f ++ sub f 96 (length f - 128) = firstn (length f - 32) f) as EB.
        { replace (length f - 32)%nat with (96 + (length f - 128))%nat by lia. symmetry. exact (sub_split f 0 96 (length f - 128)). }
        rewrite EB in B8.
        assert (rc0 = rc) as -> by (unfold trailer_ok, key_hmac in HX; intuition congruence).
        repeat (split; [reflexivity|]). intros _. cbn [fst]. rewrite firstn_app_len; [exact B7|].
        rewrite aes_ctr_length, sub_length by lia. reflexivity.
    - rewrite (proj2 (Nat.ltb_lt _ 7)) in E by lia. injection E as <-. eexists. split; [reflexivity|].
      cbn [oc_rc oc_lib oc_msgs oc_P oc_val]. repeat (split; [reflexivity|]). congruence.
    - rewrite (proj2 (Nat.ltb_ge _ 7)) in E by lia. apply list_eqb_false in S1. rewrite S1 in E. cbn [negb] in E. injection E as <-. eexists. split; [reflexivity|].
      cbn [oc_rc oc_lib oc_msgs oc_P oc_val]. repeat (split; [reflexivity|]). congruence.
    - rewrite (proj2 (Nat.ltb_ge _ 7)) in E by lia. rewrite S1, list_eqb_refl in E. apply N.eqb_neq in S2. rewrite S2 in E. cbn [negb] in E. injection E as <-. eexists. split; [reflexivity|].
      cbn [oc_rc oc_lib oc_msgs oc_P oc_val]. repeat (split; [reflexivity|]). congruence.
    - rewrite (proj2 (Nat.ltb_ge _ 7)) in E by lia. rewrite S1, list_eqb_refl, S2, N.eqb_refl in E. rewrite (proj2 (Nat.ltb_lt _ 128)) in E by lia. cbn [negb] in E.
      injection E as <-. eexists. split; [reflexivity|].
      cbn [oc_rc oc_lib oc_msgs oc_P oc_val]. repeat (split; [reflexivity|]). congruence.
  Qed.
End Good.
