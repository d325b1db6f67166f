(** The hash functions with explicit scratch memory: results and what they leave. *)
From Verif Require Import Base SpecBytes SpecSHA M_endian P_endian M_sha256_tr P_sha256_tr
  M_simd M_sha256_hw P_sha256_hw M_sha256 P_sha256 M_memzero P_memzero M_sha256_mem.

Definition wf_sha (c : sha_ctx) : Prop := length (c_state c) = 8%nat /\ length (c_buf c) = 64%nat.
Definition wf_hmac (c : hmac_ctx) : Prop := wf_sha (h_ictx c) /\ wf_sha (h_octx c).

Lemma memzero_exact buf n : length buf = n -> insecure_memzero buf n = Ok (repeat 0 n).
Proof.
  intros H. rewrite insecure_memzero_ok by lia. rewrite skipn_all2 by lia.
  rewrite app_nil_r. reflexivity.
Qed.
Lemma memzero_tmp32 t : length t = 72%nat -> memzero_words t (4 * 72) = Ok (repeat 0 72).
Proof. intros H. unfold memzero_words. change (4 * 72 / 4)%nat with 72%nat. apply memzero_exact; auto. Qed.
Lemma memzero_sha_ok c : wf_sha c -> memzero_sha c = Ok sha_zero.
Proof.
  intros [Hs Hb]. unfold memzero_sha, memzero_words. change (32 / 4)%nat with 8%nat.
  rewrite (memzero_exact (c_state c) 8) by auto. cbn [bind].
  rewrite (memzero_exact (c_buf c) 64) by auto. reflexivity.
Qed.
Lemma memzero_hmac_ok c : wf_hmac c -> memzero_hmac c = Ok hmac_zero.
Proof.
  intros [Hi Ho]. unfold memzero_hmac. rewrite (memzero_sha_ok _ Hi). cbn [bind].
  rewrite (memzero_sha_ok _ Ho). reflexivity.
Qed.
Lemma sha_inv_wf c m : sha_inv c m -> wf_sha c.
Proof.
  intros (A & B & tl & _ & _ & _ & Hs & Hb & HL & _). split.
  - rewrite Hs, sha_blocks_length. apply H256_length.
  - rewrite Hb. exact HL.
Qed.
Lemma hmac_inv_wf c K m : hmac_inv c K m -> wf_hmac c.
Proof. intros [Hi Ho]. split; eapply sha_inv_wf; eassumption. Qed.

Section WithMachine.
  Context (hw : sha_hw) (leave : list N -> bytes -> list N -> list N).
  Hypothesis leave_len : forall st b t, length t = 72%nat -> length (leave st b t) = 72%nat.

Lemma mem_Transform_ok state block t :
  length state = 8%nat -> length block = 64%nat -> bytes_ok block -> length t = 72%nat ->
  exists t', mem_Transform hw leave state block t = Ok (compress state block, t') /\ length t' = 72%nat.
Proof.
  intros Hs Hb Hok Ht. unfold mem_Transform. rewrite rd_ok by lia. cbn [bind].
  assert (length (sub t 0 64) = 64%nat) as HW by (apply sub_length; lia).
  exists (leave state block t). split; [|apply leave_len; exact Ht].
  assert (SHA256_Transform hw state block (sub t 0 64) = Ok (compress state block)) as ->; [|reflexivity].
  unfold SHA256_Transform. destruct hw.
  - apply SHA256_Transform_sw_correct; auto.
  - apply SHA256_Transform_shani_correct; auto.
  - apply SHA256_Transform_sse2_correct; auto.
  - apply SHA256_Transform_arm_correct; auto.
Qed.

Lemma mem_update_blocks_spec fuel state src t :
  length state = 8%nat -> (length src <= fuel)%nat -> bytes_ok src -> length t = 72%nat ->
  exists A B t', src = A ++ B /\ (length A mod 64 = 0)%nat /\ (length B < 64)%nat /\
    mem_update_blocks hw leave fuel state src t = Ok (sha_blocks state A, B, t') /\ length t' = 72%nat.
Proof.
  revert state src t. induction fuel as [|f IH]; intros state src t Hs Hf Hok Ht.
  - destruct src; [|simpl in Hf; lia]. exists [], [], t. repeat split; auto. simpl; lia.
  - cbn [mem_update_blocks]. destruct (Nat.leb_spec 64 (length src)) as [H|H].
    + rewrite rd_ok by lia. cbn [bind].
      assert (length (sub src 0 64) = 64%nat) as HL by (apply sub_length; lia).
      destruct (mem_Transform_ok state (sub src 0 64) t) as (t1 & -> & Ht1);
        [exact Hs|exact HL|apply Forall_sub; exact Hok|exact Ht|]. cbn [bind].
      destruct (IH (compress state (sub src 0 64)) (skipn 64 src) t1) as (A & B & t2 & E & HA & HB & HU & Ht2).
      * rewrite compress_length. exact Hs.
      * rewrite skipn_length. lia.
      * apply Forall_skipn. exact Hok.
      * exact Ht1.
      * exists (sub src 0 64 ++ A), B, t2. repeat split; auto.
        -- rewrite <- app_assoc, <- E. unfold sub. rewrite skipn_O. symmetry. apply firstn_skipn.
        -- rewrite app_length, HL, Nat.add_mod, HA by lia. reflexivity.
        -- rewrite HU. rewrite sha_blocks_app by (rewrite HL; reflexivity).
           rewrite (sha_blocks_one state) by exact HL. reflexivity.
    + exists [], src, t. repeat split; auto.
Qed.

Lemma mem_Update_inv ctx m d t : sha_inv ctx m -> bytes_ok d -> length t = 72%nat ->
  exists ctx' t', mem_Update_internal hw leave ctx d t = Ok (ctx', t') /\ sha_inv ctx' (m ++ d) /\
    length t' = 72%nat.
Proof.
  intros (A & B & tl & Em & HA & HB & Hst & Hbuf & Hlen & Hcnt & Hok) Hd Ht.
  unfold mem_Update_internal.
  destruct (Nat.eqb_spec (length d) 0) as [H0|H0].
  - exists ctx, t. split; auto. split; [|exact Ht]. destruct d; [|discriminate]. rewrite app_nil_r.
    exists A, B, tl. tauto.
  - rewrite Hcnt, count_r, Hbuf, Hst.
    assert (length m mod 64 = length B)%nat as -> by (rewrite Em; apply app_mod64; auto).
    assert (bytes_ok A /\ bytes_ok B) as [HokA HokB] by (rewrite Em in Hok; apply bytes_ok_app; exact Hok).
    rewrite app_length in Hlen.
    rewrite update_count, <- app_length.
    destruct (Nat.ltb_spec (length d) (64 - length B)) as [H1|H1].
    + rewrite wr_ok by (rewrite app_length; lia). cbn [bind].
      eexists; eexists; split; [reflexivity|]. split; [|eassumption].
      exists A, (B ++ d), (skipn (length d) tl). cbn [c_state c_buf c_count].
      repeat split; auto.
      * rewrite Em, <- app_assoc. reflexivity.
      * rewrite app_length; lia.
      * rewrite <- (firstn_skipn (length d) tl) at 1.
        rewrite upd_app by (rewrite firstn_length; lia). apply app_assoc.
      * rewrite !app_length, skipn_length. lia.
      * apply bytes_ok_app; auto.
    + rewrite rd_ok by lia. cbn [bind].
      set (part := sub d 0 (64 - length B)).
      assert (length part = 64 - length B)%nat as Hp by (apply sub_length; lia).
      rewrite wr_ok by (rewrite app_length; lia). cbn [bind].
      assert (upd (B ++ tl) (length B) part = B ++ part) as ->.
      { rewrite <- (app_nil_r tl). rewrite upd_app by lia. rewrite app_nil_r. reflexivity. }
      rewrite rd_ok by (rewrite app_length; lia). cbn [bind].
      rewrite sub_0_all by (rewrite app_length; lia).
      assert (bytes_ok part) as Hpok by (apply Forall_sub; exact Hd).
      assert (length (B ++ part) = 64)%nat as HBp by (rewrite app_length; lia).
      destruct (mem_Transform_ok (sha_blocks H256 A) (B ++ part) t) as (t1 & -> & Ht1);
        [rewrite sha_blocks_length; apply H256_length|exact HBp|apply bytes_ok_app; auto|exact Ht|].
      cbn [bind].
      destruct (mem_update_blocks_spec (length d) (compress (sha_blocks H256 A) (B ++ part))
        (skipn (64 - length B) d) t1) as (A' & B' & t2 & E' & HA' & HB' & HU & Ht2).
      { rewrite compress_length, sha_blocks_length. apply H256_length. }
      { rewrite skipn_length. lia. }
      { apply Forall_skipn. exact Hd. }
      { exact Ht1. }
      rewrite HU. cbn [bind].
      rewrite wr_ok by (rewrite HBp; simpl; lia). cbn [bind].
      eexists; eexists; split; [reflexivity|]. split; [|eassumption].
      exists (A ++ (B ++ part) ++ A'), B', (skipn (length B') (B ++ part)).
      cbn [c_state c_buf c_count].
      assert (d = part ++ A' ++ B') as Ed.
      { rewrite <- E'. unfold part, sub. rewrite skipn_O. symmetry. apply firstn_skipn. }
      repeat split; auto.
      * rewrite Em. rewrite Ed at 1. rewrite <- !app_assoc. reflexivity.
      * rewrite !app_length. rewrite app_length in HBp. rewrite HBp.
        rewrite Nat.add_mod, HA by lia. rewrite (Nat.add_mod 64), HA' by lia. reflexivity.
      * rewrite sha_blocks_app by exact HA. rewrite sha_blocks_app by (rewrite HBp; reflexivity).
        rewrite (sha_blocks_one _ (B ++ part)) by exact HBp. reflexivity.
      * rewrite app_length, skipn_length. lia.
      * apply bytes_ok_app; auto.
Qed.

Lemma mem_Pad_correct ctx m t : sha_inv ctx m -> length t = 72%nat ->
  exists ctx' t', mem_Pad hw leave ctx t = Ok (ctx', t') /\ c_state ctx' = sha_blocks H256 (sha_pad m) /\
    length (c_buf ctx') = 64%nat /\ length t' = 72%nat.
Proof.
  intros (A & B & tl & Em & HA & HB & Hst & Hbuf & Hlen & Hcnt & Hok) Ht.
  unfold mem_Pad. rewrite Hcnt, count_r, Hbuf, Hst.
  assert (length m mod 64 = length B)%nat as Er by (rewrite Em; apply app_mod64; auto).
  rewrite Er.
  assert (bytes_ok A /\ bytes_ok B) as [HokA HokB] by (rewrite Em in Hok; apply bytes_ok_app; exact Hok).
  assert (length (sha_blocks H256 A) = 8%nat) as HSL by (rewrite sha_blocks_length; apply H256_length).
  rewrite app_length in Hlen.
  assert (forall k, bytes_ok (zeros k)) as Hz by (intros; apply bytes_ok_repeat; reflexivity).
  assert (length (be_bytes 8 (8 * N.of_nat (length m))) = 8%nat) as HE by apply be_bytes_length.
  assert (bytes_ok (be_bytes 8 (8 * N.of_nat (length m)))) as HEok by apply be_bytes_ok.
  destruct (Nat.ltb_spec (length B) 56) as [H|H].
  - rewrite PAD_prefix by lia. cbn [bind].
    assert (length (0x80%N :: zeros (56 - length B - 1)) = 56 - length B)%nat as HL1
      by (cbn [length]; unfold zeros; rewrite repeat_length; lia).
    rewrite wr_ok by (rewrite app_length; lia). cbn [bind].
    rewrite <- (firstn_skipn (56 - length B) tl).
    rewrite upd_app by (rewrite firstn_length; lia).
    set (P := 0x80 :: zeros (56 - length B - 1)) in *.
    assert (length (skipn (56 - length B) tl) = 8)%nat as HL2 by (rewrite skipn_length; lia).
    rewrite be64enc_w64.
    rewrite wr_ok by (rewrite !app_length; lia). cbn [bind].
    rewrite app_assoc.
    assert (length (B ++ P) = 56)%nat as HBP by (rewrite app_length; lia).
    match goal with |- context [upd (_ ++ ?R) 56 ?E] =>
      assert (upd ((B ++ P) ++ R) 56 E = (B ++ P) ++ E) as -> by (apply upd_tail'; lia) end.
    rewrite rd_ok by (rewrite !app_length; lia). cbn [bind].
    assert (length ((B ++ P) ++ be_bytes 8 (8 * N.of_nat (length m))) = 64)%nat as HF
      by (rewrite !app_length; lia).
    rewrite sub_0_all by lia.
    destruct (mem_Transform_ok (sha_blocks H256 A) ((B ++ P) ++ be_bytes 8 (8 * N.of_nat (length m))) t)
      as (t1 & -> & Ht1); [exact HSL|exact HF| |exact Ht|].
    { rewrite !bytes_ok_app. repeat split; auto. unfold P. constructor; [reflexivity|apply Hz]. }
    cbn [bind]. eexists; eexists; split; [reflexivity|]. cbn [c_state c_buf]. split; [|split; [exact HF|eassumption]].
    assert (sha_pad m = A ++ B ++ [0x80] ++ zeros (padzeros (length m)) ++ be_bytes 8 (8 * N.of_nat (length m))) as ->.
    { unfold sha_pad. generalize (zeros (padzeros (length m)) ++ be_bytes 8 (8 * N.of_nat (length m))).
      intros z. rewrite Em, <- app_assoc. reflexivity. }
    rewrite sha_blocks_app by exact HA.
    replace (B ++ [0x80] ++ zeros (padzeros (length m)) ++ be_bytes 8 (8 * N.of_nat (length m)))
      with ((B ++ P) ++ be_bytes 8 (8 * N.of_nat (length m))).
    2:{ unfold P, padzeros. rewrite Er.
        replace ((119 - length B) mod 64)%nat with (56 - length B - 1)%nat.
        - rewrite <- app_assoc. reflexivity.
        - replace (119 - length B)%nat with (55 - length B + 1 * 64)%nat by lia.
          rewrite Nat.mod_add, Nat.mod_small by lia. lia. }
    rewrite (sha_blocks_one (sha_blocks H256 A)) by exact HF. reflexivity.
  - rewrite PAD_prefix by lia. cbn [bind].
    assert (length (0x80%N :: zeros (64 - length B - 1)) = 64 - length B)%nat as HL1
      by (cbn [length]; unfold zeros; rewrite repeat_length; lia).
    rewrite wr_ok by (rewrite app_length; lia). cbn [bind].
    set (P := 0x80 :: zeros (64 - length B - 1)) in *.
    rewrite upd_tail by lia.
    rewrite rd_ok by (rewrite app_length; lia). cbn [bind].
    assert (length (B ++ P) = 64)%nat as HBP by (rewrite app_length; lia).
    rewrite sub_0_all by lia.
    assert (bytes_ok (B ++ P)) as HBPok.
    { apply bytes_ok_app. split; auto. unfold P. constructor; [reflexivity|apply Hz]. }
    destruct (mem_Transform_ok (sha_blocks H256 A) (B ++ P) t) as (t1 & -> & Ht1); auto. cbn [bind].
    rewrite wr_ok by (rewrite HBP, repeat_length; lia). cbn [bind].
    rewrite be64enc_w64.
    assert (length (upd (B ++ P) 0 (repeat 0 56)) = 64%nat) as HU
      by (rewrite upd_length; rewrite ?repeat_length; lia).
    rewrite wr_ok by lia. cbn [bind].
    assert (upd (upd (B ++ P) 0 (repeat 0 56)) 56 (be_bytes 8 (8 * N.of_nat (length m)))
       = zeros 56 ++ be_bytes 8 (8 * N.of_nat (length m))) as ->.
    { unfold upd at 2. rewrite firstn_O, app_nil_l, repeat_length.
      apply upd_tail'; [reflexivity|]. rewrite skipn_length. lia. }
    assert (length (zeros 56 ++ be_bytes 8 (8 * N.of_nat (length m))) = 64%nat) as HF
      by (rewrite app_length; unfold zeros; rewrite repeat_length; lia).
    rewrite rd_ok by lia. cbn [bind].
    rewrite sub_0_all by lia.
    destruct (mem_Transform_ok (compress (sha_blocks H256 A) (B ++ P))
      (zeros 56 ++ be_bytes 8 (8 * N.of_nat (length m))) t1) as (t2 & -> & Ht2);
      [rewrite compress_length; exact HSL|exact HF| |exact Ht1|].
    { apply bytes_ok_app. auto. }
    cbn [bind]. eexists; eexists; split; [reflexivity|]. cbn [c_state c_buf]. split; [|split; [exact HF|eassumption]].
    assert (sha_pad m = A ++ B ++ [0x80] ++ zeros (padzeros (length m)) ++ be_bytes 8 (8 * N.of_nat (length m))) as ->.
    { unfold sha_pad. generalize (zeros (padzeros (length m)) ++ be_bytes 8 (8 * N.of_nat (length m))).
      intros z. rewrite Em, <- app_assoc. reflexivity. }
    rewrite sha_blocks_app by exact HA.
    replace (B ++ [0x80] ++ zeros (padzeros (length m)) ++ be_bytes 8 (8 * N.of_nat (length m)))
      with ((B ++ P) ++ zeros 56 ++ be_bytes 8 (8 * N.of_nat (length m))).
    2:{ unfold P, padzeros. rewrite Er.
        replace ((119 - length B) mod 64)%nat with (64 - length B - 1 + 56)%nat
          by (rewrite Nat.mod_small by lia; lia).
        unfold zeros. rewrite repeat_app. rewrite <- !app_assoc. reflexivity. }
    rewrite sha_blocks_app by (rewrite HBP; reflexivity).
    rewrite (sha_blocks_one _ (B ++ P)) by exact HBP. rewrite (sha_blocks_one (compress _ _)) by exact HF. reflexivity.
Qed.

Lemma mem_Final_internal_correct digest ctx m t : sha_inv ctx m -> length t = 72%nat ->
  (32 <= length digest)%nat ->
  exists ctx' t', mem_Final_internal hw leave digest ctx t =
      Ok (sha256 m ++ skipn 32 digest, ctx', t') /\
    wf_sha ctx' /\ length t' = 72%nat.
Proof.
  intros H Ht Hd. unfold mem_Final_internal.
  destruct (mem_Pad_correct ctx m t H Ht) as (ctx' & t' & -> & Hs & Hb & Ht'). cbn [bind].
  assert (length (c_state ctx') = 8%nat) as HL by (rewrite Hs, sha_blocks_length; apply H256_length).
  unfold be32enc_vect. change (assert_ (Nat.eqb (32 mod 4) 0)) with (Ok tt). cbn [bind].
  change (32 / 4)%nat with 8%nat. rewrite rd_ok by lia. cbn [bind]. rewrite sub_0_all by lia.
  assert (flat_map be32enc (c_state ctx') = sha256 m) as ->.
  { unfold sha256, words_bytes. rewrite Hs. apply flat_map_ext. intros; apply be32enc_spec. }
  rewrite wr_ok by (rewrite sha256_length; lia). cbn [bind].
  exists ctx', t'. split; [|split; [split|]; assumption].
  unfold upd. rewrite firstn_O, app_nil_l, sha256_length. reflexivity.
Qed.

Lemma mem_HMAC_Init_correct ctx K t pad khash :
  length (c_buf (h_ictx ctx)) = 64%nat -> length (c_buf (h_octx ctx)) = 64%nat -> bytes_ok K ->
  length t = 72%nat -> length pad = 64%nat -> length khash = 32%nat ->
  exists ctx' t' pad' khash', mem_HMAC_Init_internal hw leave ctx K t pad khash =
      Ok (ctx', t', pad', khash') /\ hmac_inv ctx' K [] /\ length t' = 72%nat /\
      length pad' = 64%nat /\ length khash' = 32%nat.
Proof.
  intros Hi Ho HK Ht Hp Hkh. unfold mem_HMAC_Init_internal.
  set (K0 := if Nat.ltb 64 (length K) then sha256 K else K).
  assert (exists ic t1 kh1, mem_hash_key hw leave (h_ictx ctx) K t khash = Ok (ic, K0, t1, kh1) /\
    length (c_buf ic) = 64%nat /\ length t1 = 72%nat /\ length kh1 = 32%nat)
    as (ic & t1 & kh1 & -> & Hic & Ht1 & Hk1).
  { unfold mem_hash_key, K0. destruct (Nat.ltb 64 (length K)).
    - destruct (mem_Update_inv (SHA256_Init (h_ictx ctx)) [] K t) as (c & t1 & -> & Hc & Ht1); auto.
      { apply SHA256_Init_inv; auto. }
      cbn [bind]. destruct (mem_Final_internal_correct khash c K t1 Hc Ht1) as (c' & t2 & -> & [_ Hb] & Ht2);
        [lia|].
      cbn [bind]. rewrite skipn_all2 by lia. rewrite app_nil_r.
      rewrite rd_ok by (rewrite sha256_length; lia). cbn [bind].
      rewrite sub_0_all by (rewrite sha256_length; lia).
      do 3 eexists. split; [reflexivity|]. rewrite sha256_length. auto.
    - do 3 eexists. split; [reflexivity|]. auto. }
  cbn [bind].
  assert (length K0 <= 64)%nat as HL0.
  { unfold K0. destruct (Nat.ltb_spec 64 (length K)); rewrite ?sha256_length; lia. }
  assert (forall (b : N) (p : bytes), length p = 64%nat -> wr p 0 (repeat b 64) = Ok (repeat b 64)) as Hset.
  { intros b p Lp. rewrite wr_ok by (rewrite repeat_length; lia). f_equal. unfold upd.
    rewrite firstn_O, app_nil_l, repeat_length, skipn_all2 by lia. apply app_nil_r. }
  rewrite Hset by exact Hp. cbn [bind]. rewrite !pad_xor_hmac by exact HL0. cbn [bind].
  change (K0 ++ zeros (64 - length K0)) with (hmac_key K).
  fold (ipad K).
  assert (length (ipad K) = 64%nat) as LI by (unfold ipad; rewrite map_length; apply hmac_key_length).
  assert (length (opad K) = 64%nat) as LO by (unfold opad; rewrite map_length; apply hmac_key_length).
  rewrite rd_ok by lia. cbn [bind]. rewrite sub_0_all by lia.
  destruct (mem_Update_inv (SHA256_Init ic) [] (ipad K) t1) as (c1 & t2 & -> & Hc1 & Ht2);
    [apply SHA256_Init_inv; auto|apply ipad_ok; auto|exact Ht1|].
  cbn [bind]. rewrite Hset by exact LI. cbn [bind]. rewrite !pad_xor_hmac by exact HL0. cbn [bind].
  change (K0 ++ zeros (64 - length K0)) with (hmac_key K). fold (opad K).
  rewrite rd_ok by lia. cbn [bind]. rewrite sub_0_all by lia.
  destruct (mem_Update_inv (SHA256_Init (h_octx ctx)) [] (opad K) t2) as (c2 & t3 & -> & Hc2 & Ht3);
    [apply SHA256_Init_inv; auto|apply opad_ok; auto|exact Ht2|].
  cbn [bind]. do 4 eexists. split; [reflexivity|].
  split; [|auto]. split; cbn [h_ictx h_octx]; [rewrite app_nil_r|]; assumption.
Qed.

Lemma mem_HMAC_Update_correct ctx K m d t : hmac_inv ctx K m -> bytes_ok d -> length t = 72%nat ->
  exists ctx' t', mem_HMAC_Update_internal hw leave ctx d t = Ok (ctx', t') /\ hmac_inv ctx' K (m ++ d) /\
    length t' = 72%nat.
Proof.
  intros [Hi Ho] Hd Ht. unfold mem_HMAC_Update_internal.
  destruct (mem_Update_inv (h_ictx ctx) (ipad K ++ m) d t) as (c & t' & -> & Hc & Ht'); auto.
  cbn [bind]. do 2 eexists; split; [reflexivity|]. split; [|exact Ht'].
  split; cbn [h_ictx h_octx]; auto. rewrite app_assoc. exact Hc.
Qed.

Lemma mem_HMAC_Final_internal_correct digest ctx K m t ihash :
  hmac_inv ctx K m -> length t = 72%nat -> (32 <= length digest)%nat -> (32 <= length ihash)%nat ->
  exists ctx' t' ihash', mem_HMAC_Final_internal hw leave digest ctx t ihash =
      Ok (hmac K m ++ skipn 32 digest, ctx', t', ihash') /\
    wf_hmac ctx' /\ length t' = 72%nat /\ length ihash' = length ihash.
Proof.
  intros [Hi Ho] Ht Hd Hh. unfold mem_HMAC_Final_internal.
  destruct (mem_Final_internal_correct ihash _ _ t Hi Ht Hh) as (c & t1 & -> & Wc & Ht1). cbn [bind].
  rewrite rd_ok by (rewrite app_length, sha256_length; lia). cbn [bind].
  assert (sub (sha256 (ipad K ++ m) ++ skipn 32 ihash) 0 32 = sha256 (ipad K ++ m)) as ->.
  { unfold sub. rewrite skipn_O, firstn_app, sha256_length, Nat.sub_diag, firstn_O, app_nil_r.
    apply firstn_all2. rewrite sha256_length. lia. }
  destruct (mem_Update_inv _ _ (sha256 (ipad K ++ m)) t1 Ho (sha256_ok _) Ht1) as (c2 & t2 & -> & H2 & Ht2).
  cbn [bind]. destruct (mem_Final_internal_correct digest _ _ t2 H2 Ht2 Hd) as (c3 & t3 & -> & W3 & Ht3).
  cbn [bind]. do 3 eexists. split; [reflexivity|]. split; [split; assumption|].
  split; [exact Ht3|]. rewrite app_length, sha256_length, skipn_length. lia.
Qed.

Lemma init_in_tmp8_correct ctx K t t8 :
  length (c_buf (h_ictx ctx)) = 64%nat -> length (c_buf (h_octx ctx)) = 64%nat -> bytes_ok K ->
  length t = 72%nat -> length t8 = 96%nat ->
  exists ctx' t' t8', init_in_tmp8 hw leave ctx K t t8 = Ok (ctx', t', t8') /\ hmac_inv ctx' K [] /\
    length t' = 72%nat /\ length t8' = 96%nat.
Proof.
  intros Hi Ho HK Ht H8. unfold init_in_tmp8.
  destruct (mem_HMAC_Init_correct ctx K t (firstn 64 t8) (skipn 64 t8)) as (c & t1 & p1 & k1 & -> & Hc & L1 & L2 & L3);
    auto; [rewrite firstn_length; lia|rewrite skipn_length; lia|].
  cbn [bind]. do 3 eexists. split; [reflexivity|]. split; [exact Hc|]. split; [exact L1|].
  rewrite app_length. lia.
Qed.

(* ---------------- PBKDF2 ---------------- *)
Lemma pad_xor_full (T U : bytes) : length T = 32%nat -> length U = 32%nat ->
  pad_xor 32 0 T U = Ok (xorl T U).
Proof.
  intros HT HU. rewrite pad_xor_spec by lia. f_equal.
  unfold upd, sub. rewrite !skipn_O, !firstn_O, app_nil_l.
  rewrite !firstn_all2 by lia. rewrite skipn_all2, app_nil_r; [reflexivity|].
  rewrite xorl_length. lia.
Qed.

(** The sizes of the automatic variables. *)
Definition sized (s : pb_stack) : Prop :=
  wf_hmac (s_Phctx s) /\ wf_hmac (s_PShctx s) /\ wf_hmac (s_hctx s) /\ length (s_tmp32 s) = 72%nat /\
  length (s_tmp8 s) = 96%nat /\ length (s_ivec s) = 4%nat /\ length (s_U s) = 32%nat /\
  length (s_T s) = 32%nat.

Lemma mem_pb_inner_correct n s P : hmac_inv (s_Phctx s) P [] -> sized s -> bytes_ok (s_U s) ->
  exists s', mem_pb_inner hw leave n s = Ok s' /\ sized s' /\
    s_T s' = pbkdf2_xor P (s_U s) (s_T s) n /\
    s_Phctx s' = s_Phctx s /\ s_PShctx s' = s_PShctx s /\ s_ivec s' = s_ivec s.
Proof.
  revert s. induction n as [|n IH]; intros s Hph Hsz HU.
  - exists s. auto 10.
  - cbn [mem_pb_inner pbkdf2_xor].
    destruct Hsz as (S1 & S2 & S3 & S4 & S5 & S6 & S7 & S8).
    rewrite rd_ok by lia. cbn [bind]. rewrite sub_0_all by lia.
    destruct (mem_HMAC_Update_correct (s_Phctx s) P [] (s_U s) (s_tmp32 s) Hph HU S4) as (c & t1 & -> & Hc & Ht1).
    cbn [bind]. rewrite app_nil_l in Hc.
    destruct (mem_HMAC_Final_internal_correct (s_U s) c P (s_U s) t1 (s_tmp8 s) Hc Ht1)
      as (c2 & t2 & h2 & -> & W2 & Ht2 & Hh2); [lia|lia|].
    cbn [bind]. rewrite skipn_all2 by lia. rewrite app_nil_r.
    rewrite pad_xor_full by (auto; apply hmac_length). cbn [bind].
    edestruct (IH (mk_pb (s_Phctx s) (s_PShctx s) c2 t2 h2 (s_ivec s) (hmac P (s_U s))
       (xorl (s_T s) (hmac P (s_U s))))) as (s' & E & Z & ET & E1 & E2 & E3).
    + exact Hph.
    + repeat apply conj; cbn [s_Phctx s_PShctx s_hctx s_tmp32 s_tmp8 s_ivec s_U s_T]; auto;
        try apply S1; try apply S2; try apply W2; try lia; try apply hmac_length.
      rewrite xorl_length, hmac_length. lia.
    + apply hmac_ok.
    + exists s'. split; [exact E|]. split; [exact Z|]. split; [exact ET|]. auto.
Qed.

(** What ivec may hold: nothing but the number of a block, or what it held before. *)
Definition counter_or (iv0 : bytes) (blocks : nat) (iv : bytes) : Prop :=
  iv = match blocks with O => iv0 | S _ => be_bytes 4 (N.of_nat blocks) end.

Lemma mem_pb_outer_correct fuel i s P Sa c buf dkLen iv0 :
  hmac_inv (s_Phctx s) P [] -> hmac_inv (s_PShctx s) P Sa -> sized s ->
  dkLen <= 32 * 0xffffffff -> (N.to_nat dkLen <= length buf)%nat ->
  32 * i < dkLen + 32 -> dkLen < 32 * (i + N.of_nat fuel) + 1 ->
  firstn (Nat.min (32 * N.to_nat i) (N.to_nat dkLen)) buf =
    firstn (N.to_nat dkLen) (pbkdf2_blocks P Sa c 1 (N.to_nat i)) ->
  counter_or iv0 (N.to_nat i) (s_ivec s) ->
  exists s', mem_pb_outer hw leave fuel i s c buf dkLen =
    Ok (pbkdf2 P Sa c (N.to_nat dkLen) ++ skipn (N.to_nat dkLen) buf, s') /\ sized s' /\
    counter_or iv0 ((N.to_nat dkLen + 31) / 32) (s_ivec s').
Proof.
  intros Hph Hps Hsz Hdk. revert i s buf Hph Hps Hsz.
  assert (forall i s buf, dkLen <= i * 32 -> (N.to_nat dkLen <= length buf)%nat -> 32 * i < dkLen + 32 ->
    firstn (Nat.min (32 * N.to_nat i) (N.to_nat dkLen)) buf =
      firstn (N.to_nat dkLen) (pbkdf2_blocks P Sa c 1 (N.to_nat i)) -> sized s ->
    counter_or iv0 (N.to_nat i) (s_ivec s) ->
    exists s', Ok (buf, s) = Ok (pbkdf2 P Sa c (N.to_nat dkLen) ++ skipn (N.to_nat dkLen) buf, s') /\ sized s' /\
      counter_or iv0 ((N.to_nat dkLen + 31) / 32) (s_ivec s')) as Hend.
  { intros i s buf H Hbuf Hi HF Hsz Hc.
    assert ((N.to_nat dkLen + 31) / 32 = N.to_nat i)%nat as Eq.
    { symmetry. apply (Nat.div_unique _ _ _ (N.to_nat dkLen + 31 - 32 * N.to_nat i)%nat); lia. }
    exists s. rewrite Eq. split; [|auto]. do 2 f_equal.
    rewrite <- (firstn_skipn (N.to_nat dkLen) buf) at 1. f_equal.
    rewrite Nat.min_r in HF by lia. rewrite HF, pbkdf2_unfold, Eq. reflexivity. }
  induction fuel as [|fuel IH]; intros i s buf Hph Hps Hsz Hbuf Hi Hfuel HF Hcnt.
  - cbn [mem_pb_outer]. rewrite w64_small by lia.
    destruct (N.ltb_spec (i * 32) dkLen) as [H|H]; [lia|]. apply (Hend i); auto.
  - cbn [mem_pb_outer]. rewrite (w64_small (i * 32)) by lia.
    destruct (N.ltb_spec (i * 32) dkLen) as [H|H]; [|apply (Hend i); auto].
    destruct Hsz as (S1 & S2 & S3 & S4 & S5 & S6 & S7 & S8).
    rewrite w32_small by lia. rewrite be32enc_spec.
    assert (length (be_bytes 4 (i + 1)) = 4%nat) as LB by apply be_bytes_length.
    rewrite wr_ok by lia. cbn [bind].
    assert (upd (s_ivec s) 0 (be_bytes 4 (i + 1)) = be_bytes 4 (i + 1)) as ->.
    { unfold upd. rewrite firstn_O, app_nil_l, skipn_all2 by lia. apply app_nil_r. }
    rewrite rd_ok by lia. cbn [bind]. rewrite sub_0_all by lia.
    destruct (mem_HMAC_Update_correct (s_PShctx s) P Sa (be_bytes 4 (i + 1)) (s_tmp32 s) Hps
      (be_bytes_ok _ _) S4) as (c1 & t1 & -> & H1 & Ht1).
    cbn [bind].
    destruct (mem_HMAC_Final_internal_correct (s_U s) c1 P (Sa ++ be_bytes 4 (i + 1)) t1 (s_tmp8 s) H1 Ht1)
      as (c2 & t2 & h2 & -> & W2 & Ht2 & Hh2); [lia|lia|].
    cbn [bind]. rewrite skipn_all2 by lia. rewrite app_nil_r.
    set (U := hmac P (Sa ++ be_bytes 4 (i + 1))).
    assert (length U = 32%nat) as LU by apply hmac_length.
    rewrite rd_ok by lia. cbn [bind]. rewrite sub_0_all by lia. rewrite wr_ok by lia. cbn [bind].
    assert (upd (s_T s) 0 U = U) as ->.
    { unfold upd. rewrite firstn_O, app_nil_l, skipn_all2 by lia. apply app_nil_r. }
    destruct (mem_pb_inner_correct (N.to_nat c - 1)
      (mk_pb (s_Phctx s) (s_PShctx s) c2 t2 h2 (be_bytes 4 (i + 1)) U U) P)
      as (s1 & -> & Z1 & ET & E1 & E2 & E3).
    { exact Hph. }
    { repeat apply conj; cbn [s_Phctx s_PShctx s_hctx s_tmp32 s_tmp8 s_ivec s_U s_T]; auto;
        try apply S1; try apply S2; try apply W2; lia. }
    { apply hmac_ok. }
    cbn [s_Phctx s_PShctx s_hctx s_tmp32 s_tmp8 s_ivec s_U s_T] in ET, E1, E2, E3.
    cbn [bind]. rewrite ET. unfold U.
    change (pbkdf2_xor P (hmac P (Sa ++ be_bytes 4 (i + 1))) (hmac P (Sa ++ be_bytes 4 (i + 1)))
      (N.to_nat c - 1)) with (pbkdf2_T P Sa c (i + 1)).
    set (T := pbkdf2_T P Sa c (i + 1)).
    assert (length T = 32%nat) as HT by apply pbkdf2_T_length.
    assert (w64 (2 ^ 64 + dkLen - i * 32) = dkLen - i * 32) as ->.
    { rewrite w64_mod. replace (2 ^ 64 + dkLen - i * 32) with (dkLen - i * 32 + 1 * 2 ^ 64) by lia.
      rewrite N.mod_add by discriminate. apply N.mod_small. lia. }
    set (clen := if 32 <? dkLen - i * 32 then 32 else dkLen - i * 32).
    assert (N.to_nat clen = Nat.min 32 (N.to_nat dkLen - 32 * N.to_nat i)) as Ec.
    { unfold clen. destruct (N.ltb_spec 32 (dkLen - i * 32)); lia. }
    rewrite rd_ok by lia. cbn [bind].
    assert (length (sub T 0 (N.to_nat clen)) = N.to_nat clen) as HtL by (apply sub_length; lia).
    rewrite wr_ok by lia. cbn [bind].
    assert (skipn (N.to_nat dkLen) (upd buf (N.to_nat (i * 32)) (sub T 0 (N.to_nat clen)))
            = skipn (N.to_nat dkLen) buf) as Hsk.
    { unfold upd. rewrite app_assoc, skipn_app.
      rewrite (skipn_all2 (n := N.to_nat dkLen)) by (rewrite app_length, firstn_length; lia).
      rewrite app_nil_l, skipn_skipn. f_equal. rewrite app_length, firstn_length. lia. }
    destruct (IH (w64 (i + 1)) s1 (upd buf (N.to_nat (i * 32)) (sub T 0 (N.to_nat clen)))) as (s' & E & Z & Ecnt).
    + rewrite E1. exact Hph.
    + rewrite E2. exact Hps.
    + exact Z1.
    + rewrite upd_length; lia.
    + rewrite w64_small; lia.
    + rewrite w64_small; lia.
    + rewrite w64_small by lia.
      replace (N.to_nat (i + 1)) with (S (N.to_nat i)) by lia.
      rewrite blocks_snoc. replace (N.of_nat (S (N.to_nat i))) with (i + 1) by lia. fold T.
      rewrite firstn_app, pbkdf2_blocks_length.
      rewrite <- HF. rewrite (Nat.min_l (32 * N.to_nat i)) by lia.
      unfold upd. rewrite app_assoc, firstn_app.
      assert (length (firstn (N.to_nat (i * 32)) buf ++ sub T 0 (N.to_nat clen)) =
        Nat.min (32 * S (N.to_nat i)) (N.to_nat dkLen)) as HL by (rewrite app_length, firstn_length; lia).
      rewrite HL, Nat.sub_diag, firstn_O, app_nil_r.
      rewrite firstn_all2 by lia.
      f_equal; [f_equal; lia|].
      unfold sub. rewrite skipn_O, Ec.
      destruct (Nat.min_spec 32 (N.to_nat dkLen - 32 * N.to_nat i)) as [[Hm ->]|[Hm ->]]; auto.
      rewrite !firstn_all2; auto; lia.
    + rewrite w64_small by lia. replace (N.to_nat (i + 1)) with (S (N.to_nat i)) by lia.
      unfold counter_or. rewrite E3. f_equal. lia.
    + rewrite Hsk in E. eauto.
Qed.
End WithMachine.
