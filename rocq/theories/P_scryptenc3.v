(** Proofs about the scryptenc.c model: the streaming loops and the header of a file. *)
From Verif Require Import Base SpecBytes SpecSHA SpecScrypt SpecScryptAPI SpecAES SpecDRBG SpecFormat SpecStream
  M_endian P_endian M_sha256_tr M_simd M_sha256_hw M_sha256 P_sha256 M_smix M_aes_hw M_aesctr P_aesctr P_scrypt P_scrypt_ref
  M_scrypt_sel P_scrypt_sel Prop_scrypt M_verify P_verify M_entropy P_entropy M_machine M_double M_memlimit M_cpuperf
  M_humansize M_params M_stdio P_stdio M_scryptenc SpecScryptenc P_scryptenc P_scryptenc2.

Lemma ENCBLOCK_pos : (32 < ENCBLOCK)%nat.
Proof. unfold ENCBLOCK. lia. Qed.
Local Opaque ENCBLOCK.

Lemma fread1_data_le n s d s' : (0 < n)%nat -> fread1 n s = (d, s') -> d <> [] -> input_ok s ->
  (length d + length (stream_data (no_errors s')) <= length (stream_data (no_errors s)))%nat.
Proof.
  intros Hn HR Hd HO. destruct (fread1_some n s d s' Hn HR Hd HO) as (_ & _ & _ & _ & _ & _ & x & E1 & E2).
  rewrite E1, app_length. destruct E2 as [-> | ->]; cbn [length]; lia.
Qed.

Section Loops.
  Context (M : machine).
  Lemma enc_loop_ok K key : forall fuel AES hctx fi fo m pos,
    bytes_ok key -> (length key = 16 \/ length key = 32)%nat ->
    stream_at (m_aes M) key 0 pos AES -> hmac_inv hctx K m -> input_ok fi ->
    pos + N.of_nat (length (stream_data (no_errors fi))) < 2 ^ 64 -> (in_size fi <= fuel)%nat ->
    exists eof AES' hctx' fi' fo' data w, enc_loop M fuel AES hctx fi fo = Ok (eof, AES', hctx', fi', fo') /\
      bytes_ok data /\ o_data fo' = o_data fo ++ w /\ prefix data (stream_data (no_errors fi)) /\
      prefix w (aes_ctr key 0 pos data) /\
      (eof = true -> w = aes_ctr key 0 pos data /\ hmac_inv hctx' K (m ++ w) /\ o_err fo' = o_err fo /\
         i_err fi' = stream_fails fi /\ (stream_fails fi = false -> data = stream_data fi)) /\
      (eof = false -> o_err fo' = true).
  Proof.
    induction fuel as [|f IH]; intros AES hctx fi fo m pos HKO HKL HS HH HI HP HF.
    { unfold in_size in HF. lia. }
    cbn [enc_loop]. destruct (fread1 ENCBLOCK fi) as [buf fi1] eqn:ER.
    destruct (Nat.eqb_spec (length buf) 0) as [H0|H0].
    - destruct buf; [|discriminate]. pose proof ENCBLOCK_pos.
      destruct (fread1_nil ENCBLOCK fi fi1 ltac:(lia) ER) as [HD HE].
      exists true, AES, hctx, fi1, fo, [], []. rewrite !app_nil_r. split; [reflexivity|].
      split; [constructor|]. split; [reflexivity|]. split; [apply prefix_nil|]. split; [apply prefix_nil|].
      split; [|discriminate]. intros _. cbn [aes_ctr]. split; [reflexivity|]. split; [exact HH|]. split; [reflexivity|].
      split; [exact HE|]. auto.
    - assert (buf <> []) as Hb by (intros ->; apply H0; reflexivity). pose proof ENCBLOCK_pos as HEB.
      destruct (fread1_some ENCBLOCK fi buf fi1 ltac:(lia) ER Hb HI) as (L1 & O1 & I1 & S1 & F0 & F1 & x & X1 & X2).
      pose proof (fread1_data_le ENCBLOCK fi buf fi1 ltac:(lia) ER Hb HI) as HLE.
      destruct (stream_ok (m_aes M) (m_hi M) key 0 pos AES buf HS ltac:(lia)) as (AES1 & -> & HS1). rewrite bind_Ok.
      assert (bytes_ok (aes_ctr key 0 pos buf)) as OC by (apply aes_ctr_ok; assumption).
      destruct (HMAC_Update_correct (shw M) (jk M) hctx K m (aes_ctr key 0 pos buf) HH OC) as (h1 & -> & HH1). rewrite bind_Ok.
      destruct (fwrite (aes_ctr key 0 pos buf) fo) as [ok fo1] eqn:EW.
      apply fwrite_cases in EW. destruct EW as [(-> & W1 & W2)|(-> & W1 & k & W2 & W3)]; cbn [negb].
      + destruct (IH AES1 h1 fi1 fo1 _ _ HKO HKL HS1 HH1 I1 ltac:(lia) ltac:(lia))
          as (eof & A' & h' & fi' & fo' & data & w & -> & R0 & R1 & R2 & R3 & R4 & R5).
        exists eof, A', h', fi', fo', (buf ++ data), (aes_ctr key 0 pos buf ++ w). split; [reflexivity|].
        split; [apply bytes_ok_app; split; assumption|].
        split; [rewrite R1, W1, app_assoc; reflexivity|].
        split. { rewrite X1. apply prefix_cons_app. destruct X2 as [<- | X2]; [exact R2|]. rewrite X2 in R2. apply prefix_length in R2.
                 destruct data; [apply prefix_nil|cbn in R2; lia]. }
        split. { rewrite aes_ctr_app. apply prefix_cons_app. exact R3. }
        split; [|intros He; auto].
        intros He. destruct (R4 He) as (-> & T2 & T3 & T4 & T5).
        split; [rewrite aes_ctr_app; reflexivity|]. split; [rewrite app_assoc; exact T2|].
        split; [congruence|].
        destruct (stream_fails fi) eqn:EF.
        * specialize (F1 eq_refl). rewrite F1 in T4. split; [exact T4|discriminate].
        * destruct (F0 eq_refl) as [F2 F3]. rewrite F2 in T4, T5. split; [exact T4|]. intros _. rewrite F3, (T5 eq_refl). reflexivity.
      + exists false, AES1, h1, fi1, fo1, buf, (firstn k (aes_ctr key 0 pos buf)). split; [reflexivity|].
        split; [exact O1|]. split; [exact W3|]. split; [rewrite X1; apply prefix_app|]. split; [apply prefix_firstn|].
        split; [discriminate|]. intros _. exact W1.
  Qed.

  (** The trailing 32 bytes are held back. *)
  Lemma dec_loop_ok K key : forall fuel AES hctx have fi fo m pos,
    bytes_ok key -> (length key = 16 \/ length key = 32)%nat ->
    stream_at (m_aes M) key 0 pos AES -> hmac_inv hctx K m -> input_ok fi -> bytes_ok have -> (length have <= 32)%nat ->
    pos + N.of_nat (length have) + N.of_nat (length (stream_data (no_errors fi))) < 2 ^ 64 -> (in_size fi <= fuel)%nat ->
    exists eof AES' hctx' buf fi' fo' ct hold w, dec_loop M fuel AES hctx have fi fo = Ok (eof, AES', hctx', buf, fi', fo') /\
      bytes_ok hold /\ o_data fo' = o_data fo ++ w /\ prefix w (aes_ctr key 0 pos ct) /\
      prefix (ct ++ hold) (have ++ stream_data (no_errors fi)) /\
      (length have <= length hold <= 32)%nat /\ (length hold < 32 -> ct = [])%nat /\
      (eof = true -> buf = hold /\ w = aes_ctr key 0 pos ct /\ hmac_inv hctx' K (m ++ ct) /\ o_err fo' = o_err fo /\
         i_err fi' = stream_fails fi /\ (stream_fails fi = false -> ct ++ buf = have ++ stream_data fi)) /\
      (eof = false -> o_err fo' = true /\ length hold = 32%nat).
  Proof.
    induction fuel as [|f IH]; intros AES hctx have fi fo m pos HKO HKL HS HH HI HBO HBL HP HF.
    { unfold in_size in HF. lia. }
    cbn [dec_loop]. pose proof ENCBLOCK_pos as HEB.
    destruct (fread1 (ENCBLOCK + 32 - length have) fi) as [d fi1] eqn:ER.
    assert (0 < ENCBLOCK + 32 - length have)%nat as Hn by lia.
    destruct (Nat.eqb_spec (length d) 0) as [H0|H0].
    - destruct d; [|discriminate].
      destruct (fread1_nil (ENCBLOCK + 32 - length have) fi fi1 Hn ER) as [HD HE].
      exists true, AES, hctx, have, fi1, fo, [], have, []. rewrite !app_nil_r. split; [reflexivity|].
      split; [exact HBO|]. split; [reflexivity|]. split; [apply prefix_nil|]. split; [apply prefix_app|].
      split; [lia|]. split; [reflexivity|].
      split; [|discriminate]. intros _. cbn [aes_ctr app]. split; [reflexivity|]. split; [reflexivity|]. split; [exact HH|]. split; [reflexivity|].
      split; [exact HE|]. intros _. rewrite HD, app_nil_r. reflexivity.
    - assert (d <> []) as Hb by (intros ->; apply H0; reflexivity).
      destruct (fread1_some _ fi d fi1 Hn ER Hb HI) as (L1 & O1 & I1 & S1 & F0 & F1 & x & X1 & X2).
      pose proof (fread1_data_le _ fi d fi1 Hn ER Hb HI) as HLE.
      set (buf := have ++ d). assert (length buf = length have + length d)%nat as LB by (unfold buf; apply app_length).
      assert (bytes_ok buf) as OB by (apply bytes_ok_app; split; assumption).
      destruct (Nat.leb_spec (length buf) 32) as [H32|H32].
      + assert (pos + N.of_nat (length buf) + N.of_nat (length (stream_data (no_errors fi1))) < 2 ^ 64) as HP1 by lia.
        assert (in_size fi1 <= f)%nat as HF1 by lia.
        destruct (IH AES hctx buf fi1 fo m pos HKO HKL HS HH I1 OB H32 HP1 HF1)
          as (eof & A' & h' & buf' & fi' & fo' & ct & hold & w & -> & R0 & R1 & R2 & R3 & R4 & R5 & R6 & R7).
        exists eof, A', h', buf', fi', fo', ct, hold, w. split; [reflexivity|]. split; [exact R0|]. split; [exact R1|]. split; [exact R2|].
        split. { eapply prefix_trans; [exact R3|]. rewrite X1. unfold buf. rewrite <- app_assoc. apply prefix_cons_app, prefix_cons_app.
                 destruct X2 as [<- | ->]; [apply prefix_refl|apply prefix_nil]. }
        split; [lia|]. split; [exact R5|]. split; [|exact R7].
        intros He. destruct (R6 He) as (T0 & T1 & T2 & T3 & T4 & T5).
        split; [exact T0|]. split; [exact T1|]. split; [exact T2|]. split; [exact T3|].
        destruct (stream_fails fi) eqn:EF.
        * rewrite (F1 eq_refl) in T4. split; [exact T4|discriminate].
        * destruct (F0 eq_refl) as [F2 F3]. rewrite F2 in T4, T5. split; [exact T4|]. intros _. rewrite (T5 eq_refl), F3. unfold buf. rewrite app_assoc. reflexivity.
      + rewrite rd_ok by lia. rewrite bind_Ok. change (sub buf 0 (length buf - 32)) with (firstn (length buf - 32) buf).
        set (a := firstn (length buf - 32) buf). set (b := skipn (length buf - 32) buf).
        assert (buf = a ++ b) as EAB by (unfold a, b; rewrite firstn_skipn; reflexivity).
        assert (length a = length buf - 32)%nat as LA by (unfold a; rewrite firstn_length; lia).
        assert (length b = 32%nat) as LBb by (unfold b; rewrite skipn_length; lia).
        assert (bytes_ok a) as OA by (apply bytes_ok_firstn, OB). assert (bytes_ok b) as OBb by (apply bytes_ok_skipn, OB).
        assert (sub buf (length buf - 32) 32 = b) as EB by (unfold sub; apply firstn_all2; fold b; lia).
        assert (rd buf (length buf - 32) 32 = Ok b) as ERD by (rewrite rd_ok by lia; rewrite EB; reflexivity).
        clearbody a b.
        destruct (HMAC_Update_correct (shw M) (jk M) hctx K m a HH OA) as (h1 & -> & HH1). rewrite bind_Ok.
        assert (pos + N.of_nat (length a) < 2 ^ 64) as HPA by lia.
        destruct (stream_ok (m_aes M) (m_hi M) key 0 pos AES a HS HPA) as (AES1 & -> & HS1). rewrite bind_Ok.
        destruct (fwrite (aes_ctr key 0 pos a) fo) as [ok fo1] eqn:EW.
        apply fwrite_cases in EW. destruct EW as [(-> & W1 & W2)|(-> & W1 & k & W2 & W3)]; cbn [negb].
        * rewrite ERD, bind_Ok.
          assert (pos + N.of_nat (length a) + N.of_nat (length b) + N.of_nat (length (stream_data (no_errors fi1))) < 2 ^ 64) as HP1 by lia.
          assert (length b <= 32)%nat as HLb by lia. assert (in_size fi1 <= f)%nat as HF1 by lia.
          destruct (IH AES1 h1 b fi1 fo1 _ _ HKO HKL HS1 HH1 I1 OBb HLb HP1 HF1)
            as (eof & A' & h' & buf' & fi' & fo' & ct & hold & w & -> & R0 & R1 & R2 & R3 & R4 & R5 & R6 & R7).
          exists eof, A', h', buf', fi', fo', (a ++ ct), hold, (aes_ctr key 0 pos a ++ w). split; [reflexivity|]. split; [exact R0|].
          split; [rewrite R1, W1, app_assoc; reflexivity|]. split; [rewrite aes_ctr_app; apply prefix_cons_app, R2|].
          split. { assert (have ++ stream_data (no_errors fi) = a ++ (b ++ x)) as EXX by (rewrite X1, app_assoc; change (have ++ d) with buf; rewrite EAB, <- app_assoc; reflexivity).
                   rewrite EXX, <- app_assoc. apply prefix_cons_app.
                   eapply prefix_trans; [exact R3|]. apply prefix_cons_app. destruct X2 as [<- | ->]; [apply prefix_refl|apply prefix_nil]. }
          split; [lia|]. split; [intros HX; lia|]. split; [|exact R7].
          intros He. destruct (R6 He) as (T0 & T1 & T2 & T3 & T4 & T5).
          split; [exact T0|]. split; [rewrite aes_ctr_app, T1; reflexivity|]. split; [rewrite app_assoc; exact T2|]. split; [congruence|].
          destruct (stream_fails fi) eqn:EF.
          -- rewrite (F1 eq_refl) in T4. split; [exact T4|discriminate].
          -- destruct (F0 eq_refl) as [F2 F3]. rewrite F2 in T4, T5. split; [exact T4|]. intros _.
             rewrite <- app_assoc, (T5 eq_refl), F3, app_assoc, <- EAB. unfold buf. rewrite <- app_assoc. reflexivity.
        * exists false, AES1, h1, buf, fi1, fo1, a, b, (firstn k (aes_ctr key 0 pos a)). split; [reflexivity|].
          split; [exact OBb|]. split; [exact W3|]. split; [apply prefix_firstn|].
          split. { rewrite <- EAB, X1. unfold buf. rewrite app_assoc. apply prefix_app. }
          split; [lia|]. split; [intros HX; lia|]. split; [discriminate|]. intros _. split; [exact W1|exact LBb].
  Qed.

  (** *** The first 96 bytes of a file *)
  Inductive header_result (fi : instream) : rcode -> bytes -> instream -> Prop :=
  | HR_ok fi' : (96 <= length (stream_data fi))%nat -> firstn 6 (stream_data fi) = fmt_magic -> nth 6 (stream_data fi) 0 = 0 ->
      i_err fi' = i_err fi -> input_ok fi' -> stream_data fi' = skipn 96 (stream_data fi) -> stream_fails fi' = stream_fails fi ->
      prefix (firstn 96 (stream_data fi) ++ stream_data (no_errors fi')) (stream_data (no_errors fi)) ->
      header_result fi SCRYPT_OK (firstn 96 (stream_data fi)) fi'
  | HR_short fi' : (length (stream_data fi) < 7)%nat ->
      header_result fi (if stream_fails fi then SCRYPT_ERDFILE else SCRYPT_EINVAL) [] fi'
  | HR_magic fi' : (7 <= length (stream_data fi))%nat -> firstn 6 (stream_data fi) <> fmt_magic ->
      header_result fi SCRYPT_EINVAL [] fi'
  | HR_version fi' : (7 <= length (stream_data fi))%nat -> firstn 6 (stream_data fi) = fmt_magic -> nth 6 (stream_data fi) 0 <> 0 ->
      header_result fi SCRYPT_EVERSION [] fi'
  | HR_short2 fi' : (7 <= length (stream_data fi) < 96)%nat -> firstn 6 (stream_data fi) = fmt_magic -> nth 6 (stream_data fi) 0 = 0 ->
      header_result fi (if stream_fails fi then SCRYPT_ERDFILE else SCRYPT_EINVAL) [] fi'.
  Lemma load_header_ok fi : input_ok fi -> exists rc hd fi', load_header fi = (rc, hd, fi') /\ header_result fi rc hd fi'.
  Proof.
    intros HI. unfold load_header, fread_n.
    destruct (fread_all (i_pieces fi) (i_err fi) 7) as [[h1 ok1] fi1] eqn:E1.
    destruct (fread_all_spec _ _ _ _ _ _ HI E1) as (I1 & O1 & T1 & F1).
    change (pieces_data (i_pieces fi)) with (stream_data fi) in *.
    destruct ok1; cbn [negb].
    2:{ destruct (F1 eq_refl) as (A & -> & B). unfold ferror. rewrite B. change (i_err fi || pieces_fail (i_pieces fi)) with (stream_fails fi).
        do 3 eexists. split; [reflexivity|]. apply HR_short. exact A. }
    destruct (T1 eq_refl) as (A1 & A2 & A3 & A4).
    assert (firstn 6 h1 = firstn 6 (stream_data fi)) as EQ6 by (rewrite A3, firstn_app, A1; cbn [Nat.sub firstn]; rewrite app_nil_r; reflexivity).
    assert (sel h1 6 = nth 6 (stream_data fi) 0) as EQN by (unfold sel; rewrite A3, app_nth1 by lia; reflexivity).
    assert (7 <= length (stream_data fi))%nat as L7 by (rewrite A3, app_length; lia).
    destruct (list_eqb (firstn 6 h1) magic) eqn:EM; cbn [negb].
    2:{ apply list_eqb_false in EM. do 3 eexists. split; [reflexivity|]. apply HR_magic; [exact L7|]. rewrite <- EQ6. exact EM. }
    apply list_eqb_spec in EM. rewrite EQ6 in EM.
    destruct (N.eqb_spec (sel h1 6) 0) as [EV|EV]; cbn [negb]; rewrite EQN in EV.
    2:{ do 3 eexists. split; [reflexivity|]. apply HR_version; assumption. }
    destruct (fread_all (i_pieces fi1) (i_err fi1) 89) as [[h2 ok2] fi2] eqn:E2.
    destruct (fread_all_spec _ _ _ _ _ _ I1 E2) as (I2 & O2 & T2 & F2).
    change (pieces_data (i_pieces fi1)) with (stream_data fi1) in *.
    assert (stream_fails fi1 = stream_fails fi) as EF1 by (unfold stream_fails; rewrite A2, A4; reflexivity).
    destruct ok2; cbn [negb].
    2:{ destruct (F2 eq_refl) as (B1 & B2 & B3). unfold ferror. rewrite B3. change (i_err fi1 || pieces_fail (i_pieces fi1)) with (stream_fails fi1).
        rewrite EF1. do 3 eexists. split; [reflexivity|]. apply HR_short2; [|exact EM|exact EV].
        split; [exact L7|]. rewrite A3, app_length. rewrite <- B2. lia. }
    destruct (T2 eq_refl) as (B1 & B2 & B3 & B4).
    assert (stream_data fi = (h1 ++ h2) ++ stream_data fi2) as ED by (rewrite A3, B3, app_assoc; reflexivity).
    assert (length (h1 ++ h2) = 96%nat) as L96 by (rewrite app_length; lia).
    assert (h1 ++ h2 = firstn 96 (stream_data fi)) as EH by (rewrite ED, firstn_app, L96, Nat.sub_diag, firstn_O, app_nil_r, firstn_all2 by lia; reflexivity).
    do 3 eexists. split; [reflexivity|]. rewrite EH. apply HR_ok; auto.
    - rewrite ED, app_length. lia.
    - congruence.
    - rewrite ED, skipn_app, L96, Nat.sub_diag, skipn_all2 by lia. reflexivity.
    - rewrite <- EF1. unfold stream_fails. rewrite B2, B4. reflexivity.
    - rewrite <- EH. apply fread_all_prefix in E1. apply fread_all_prefix in E2. rewrite <- app_assoc.
      eapply prefix_trans; [|exact E1]. apply prefix_cons_app. exact E2.
  Qed.
End Loops.
