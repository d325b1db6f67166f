(** AES-CTR streams: any implementation, any split into calls. *)
From Verif Require Import Base SpecBytes SpecAES M_endian P_endian P_verify M_aes_hw P_smix2 P_scrypt_ref P_aes M_aesctr.
Local Opaque sbox gmul.

(** ---- the specification ---- *)
Lemma aes_ctr_length key nonce data : forall pos, length (aes_ctr key nonce pos data) = length data.
Proof. induction data as [|b t IH]; intros pos; cbn [aes_ctr length]; auto. Qed.
Lemma aes_ctr_app key nonce a b : forall pos,
  aes_ctr key nonce pos (a ++ b) = aes_ctr key nonce pos a ++ aes_ctr key nonce (pos + N.of_nat (length a)) b.
Proof.
  induction a as [|x a IH]; intros pos; cbn [app aes_ctr length].
  - rewrite N.add_0_r. reflexivity.
  - rewrite IH. replace (pos + 1 + N.of_nat (length a)) with (pos + N.of_nat (S (length a))) by lia. reflexivity.
Qed.
Lemma aes_ctr_involutive key nonce data : forall pos,
  aes_ctr key nonce pos (aes_ctr key nonce pos data) = data.
Proof.
  induction data as [|b t IH]; intros pos; cbn [aes_ctr]; [reflexivity|].
  rewrite IH, N.lxor_assoc, N.lxor_nilpotent, N.lxor_0_r. reflexivity.
Qed.
(** Inside one block. *)
Lemma aes_ctr_block key nonce c data : forall m,
  (length (ctr_block key nonce c) = 16)%nat -> (m + length data <= 16)%nat ->
  aes_ctr key nonce (16 * c + N.of_nat m) data = xorl data (sub (ctr_block key nonce c) m (length data)).
Proof.
  intros m HL. revert m. induction data as [|b t IH]; intros m Hm; [reflexivity|].
  cbn [length] in Hm. cbn [aes_ctr length].
  rewrite (sub_S _ m (length t) 0) by lia. cbn [xorl]. f_equal.
  - f_equal. unfold ctr_byte.
    assert ((16 * c + N.of_nat m) / 16 = c) as ->.
    { symmetry. apply (N.div_unique _ 16 _ (N.of_nat m)); lia. }
    assert ((16 * c + N.of_nat m) mod 16 = N.of_nat m) as ->.
    { symmetry. apply (N.mod_unique _ 16 c); lia. }
    rewrite Nat2N.id. reflexivity.
  - replace (16 * c + N.of_nat m + 1) with (16 * c + N.of_nat (S m)) by lia. apply IH. lia.
Qed.

Lemma gmul_lt n : forall a b, a < 256 -> gmul_fuel n a b < 256.
Proof.
  induction n as [|n IH]; intros a b Ha; cbn [gmul_fuel]; [lia|].
  apply (lxor_lt _ _ 8); [destruct (N.testbit b 0); lia|apply IH, xtime_lt, Ha].
Qed.
Lemma nth_byte l i : bytes_ok l -> sel l i < 256.
Proof.
  intros H. unfold sel. destruct (Nat.lt_ge_cases i (length l)) as [Hl|Hl].
  - unfold bytes_ok in H. rewrite Forall_forall in H. apply H, nth_In, Hl.
  - rewrite nth_overflow by exact Hl. lia.
Qed.
Lemma MixColumns_ok s : bytes_ok s -> bytes_ok (MixColumns s).
Proof.
  intros H. unfold MixColumns. apply Forall_flat_map. apply Forall_forall. intros c _.
  unfold MixColumn. pose proof (fun i => nth_byte s i H) as HB.
  assert (forall a b, a < 256 -> gmul a b < 256) as HG by (intros a b Ha; exact (gmul_lt 8 a b Ha)).
  assert (forall a b, a < 256 -> b < 256 -> N.lxor a b < 256) as HX by (intros a b; exact (lxor_lt a b 8)).
  repeat (apply Forall_cons || apply Forall_nil); repeat (apply HX || apply HB || (apply HG; apply HB)).
Qed.
Lemma SubBytes_ok s : bytes_ok s -> bytes_ok (SubBytes s).
Proof. apply SubWord_bytes. Qed.
Lemma ShiftRows_ok s : bytes_ok s -> bytes_ok (ShiftRows s).
Proof. intros H. unfold ShiftRows. apply Forall_map. apply Forall_forall. intros i _. apply nth_byte, H. Qed.
Lemma aes_encrypt_ok key inp : (length key = 16 \/ length key = 32)%nat -> bytes_ok key -> bytes_ok inp ->
  bytes_ok (aes_encrypt key inp).
Proof.
  intros HL HO HI. destruct (Nk_cases key HL) as (Nk & HN & HK).
  assert (forall j, (j <= Nk + 6)%nat -> bytes_ok (round_key (KeyExpansion key) j)) as HR
    by (intros j Hj; apply (round_key_bytes key Nk); auto).
  unfold aes_encrypt. assert (length key / 4 = Nk)%nat as -> by (rewrite HK, Nat.mul_comm, Nat.div_mul; lia).
  unfold Cipher. apply bytes_ok_xorl; [|apply HR; lia]. apply ShiftRows_ok, SubBytes_ok.
  assert (forall l s, (forall j, In j l -> (j <= Nk + 6)%nat) -> bytes_ok s ->
    bytes_ok (fold_left (aes_round (KeyExpansion key)) l s)) as HF.
  { induction l as [|j l IH]; intros s Hl Hs; [exact Hs|]. cbn [fold_left].
    apply IH; [intros k Hk; apply Hl; right; exact Hk|].
    apply bytes_ok_xorl; [apply MixColumns_ok, ShiftRows_ok, SubBytes_ok, Hs|apply HR, Hl; left; reflexivity]. }
  apply HF; [intros j Hj; apply in_seq in Hj; lia|].
  apply bytes_ok_xorl; [exact HI|apply HR; lia].
Qed.
Lemma ctr_block_length key nonce c : (length key = 16 \/ length key = 32)%nat -> length (ctr_block key nonce c) = 16%nat.
Proof.
  intros H. unfold ctr_block. apply aes_encrypt_length; [exact H|].
  rewrite app_length, !be_bytes_length. reflexivity.
Qed.
Lemma aes_ctr_ok key nonce data : (length key = 16 \/ length key = 32)%nat -> bytes_ok key -> bytes_ok data ->
  forall pos, bytes_ok (aes_ctr key nonce pos data).
Proof.
  intros HL HO. induction data as [|b t IH]; intros HD pos; cbn [aes_ctr]; [constructor|].
  inversion HD as [|? ? Hb Ht]; subst. constructor; [|apply IH, Ht].
  apply (lxor_lt _ _ 8); [exact Hb|]. unfold ctr_byte. apply nth_byte.
  unfold ctr_block. apply aes_encrypt_ok; auto. apply bytes_ok_app. split; apply be_bytes_ok.
Qed.

(** ---- the implementation ---- *)
(** [k] is the expansion of [key] for the implementation in use. *)
Definition key_rep (hw : aes_hw) (key : bytes) (k : aes_key) : Prop :=
  (length key = 16 \/ length key = 32)%nat /\
  match hw, k with
  | AES_SOFTWARE, AK_openssl k' => k' = key
  | AES_X86_AESNI, AK_hw hk | AES_ARM_AES, AK_hw hk => hw_key_for key hk
  | _, _ => False
  end.
Lemma expand_rep hw key old : (length key = 16 \/ length key = 32)%nat -> bytes_ok key -> length old = 15%nat ->
  exists k, crypto_aes_key_expand hw true old key (length key) = Ok (Some k) /\ key_rep hw key k.
Proof.
  intros HL HB HO. unfold crypto_aes_key_expand.
  assert (Nat.eqb (length key) 16 || Nat.eqb (length key) 32 = true) as -> by (destruct HL as [-> | ->]; reflexivity).
  cbn [assert_]. rewrite bind_Ok. destruct hw.
  - cbn [negb]. cbv iota. rewrite rd_ok by lia. rewrite bind_Ok, sub_0_all by reflexivity.
    eexists; split; [reflexivity|]. split; [exact HL|reflexivity].
  - destruct (expand_aesni_ok key old HL HO) as (hk & -> & Hk). rewrite bind_Ok.
    eexists; split; [reflexivity|]. split; [exact HL|exact Hk].
  - destruct (expand_arm_ok key old HL HB HO) as (hk & -> & Hk). rewrite bind_Ok.
    eexists; split; [reflexivity|]. split; [exact HL|exact Hk].
Qed.
Lemma expand_nomem hw key old : (length key = 16 \/ length key = 32)%nat ->
  crypto_aes_key_expand hw false old key (length key) = Ok None.
Proof.
  intros HL. unfold crypto_aes_key_expand.
  assert (Nat.eqb (length key) 16 || Nat.eqb (length key) 32 = true) as -> by (destruct HL as [-> | ->]; reflexivity).
  destruct hw; reflexivity.
Qed.
Lemma encrypt_block_rep hw key k inp : key_rep hw key k -> length inp = 16%nat ->
  crypto_aes_encrypt_block hw inp k = Ok (aes_encrypt key inp).
Proof.
  intros [HL HR] Hi. destruct hw, k; cbn [key_rep] in HR; try contradiction; cbn [crypto_aes_encrypt_block].
  - rewrite rd_ok by lia. rewrite bind_Ok, sub_0_all by lia. subst. reflexivity.
  - unfold crypto_aes_encrypt_block_aesni, vld16. rewrite rd_ok by lia. rewrite bind_Ok, sub_0_all by lia.
    apply aesni_encrypt_ok; assumption.
  - unfold crypto_aes_encrypt_block_arm, vld16. rewrite rd_ok by lia. rewrite bind_Ok, sub_0_all by lia.
    apply arm_encrypt_ok; assumption.
Qed.

(** Stream at byte position [pos]. *)
Record stream_at (hw : aes_hw) (key : bytes) (nonce pos : N) (st : ctr_stream) : Prop := mk_at {
  at_key : key_rep hw key (s_key st);
  at_ctr : s_bytectr st = pos;
  at_pos : pos < 2 ^ 64;
  at_buflen : length (s_buf st) = 16%nat;
  at_pblklen : length (s_pblk st) = 16%nat;
  at_nonce : firstn 8 (s_pblk st) = be_bytes 8 nonce;
  at_first : pos = 0 -> sel (s_pblk st) 15 = 0xff;
  at_later : pos <> 0 -> skipn 8 (s_pblk st) = be_bytes 8 ((pos - 1) / 16);
  at_buf : pos mod 16 <> 0 -> s_buf st = ctr_block key nonce (pos / 16) }.

(** After the key-stream block for [pos] has been generated. *)
Record stream_gen (hw : aes_hw) (key : bytes) (nonce pos : N) (st : ctr_stream) : Prop := mk_gen {
  g_key : key_rep hw key (s_key st);
  g_ctr : s_bytectr st = pos;
  g_buf : s_buf st = ctr_block key nonce (pos / 16);
  g_pblklen : length (s_pblk st) = 16%nat;
  g_nonce : firstn 8 (s_pblk st) = be_bytes 8 nonce;
  g_cnt : skipn 8 (s_pblk st) = be_bytes 8 (pos / 16) }.

Lemma be_bytes_8 x : be_bytes 8 x = be_bytes 7 (x / 256) ++ [x mod 256].
Proof. reflexivity. Qed.
Lemma pblk_split (p : bytes) : length p = 16%nat -> p = firstn 8 p ++ skipn 8 p.
Proof. intros _. symmetry. apply firstn_skipn. Qed.
Lemma wr_hi (a b d : bytes) : length a = 8%nat -> length b = 8%nat -> length d = 8%nat ->
  wr (a ++ b) 8 d = Ok (a ++ d).
Proof.
  intros Ha Hb Hd. rewrite wr_ok by (rewrite app_length; lia). f_equal.
  pose proof (upd_app a b [] d) as E. rewrite !app_nil_r in E. rewrite Ha in E. apply E. lia.
Qed.
Lemma wr_last (a b : bytes) x c : length a = 8%nat -> length b = 7%nat ->
  wr (a ++ b ++ [x]) 15 [c] = Ok (a ++ b ++ [c]).
Proof.
  intros Ha Hb. rewrite wr_ok by (rewrite !app_length; cbn [length]; lia). f_equal.
  pose proof (upd_app (a ++ b) [x] [] [c]) as E. rewrite !app_nil_r in E.
  rewrite app_length, Ha, Hb in E. rewrite <- !app_assoc in E. apply E. reflexivity.
Qed.
Lemma rd_last (a b : bytes) x : length a = 8%nat -> length b = 7%nat -> rd (a ++ b ++ [x]) 15 1 = Ok [x].
Proof.
  intros Ha Hb. rewrite rd1 by (rewrite !app_length; cbn [length]; lia). do 2 f_equal.
  unfold sel. rewrite !app_nth2 by lia. replace (15 - length a - length b)%nat with 0%nat by lia. reflexivity.
Qed.

Lemma generate_ok hw key nonce pos st : stream_at hw key nonce pos st -> pos mod 16 = 0 ->
  exists st', cipherblock_generate hw st = Ok st' /\ stream_gen hw key nonce pos st'.
Proof.
  intros [A1 A2 A3 A4 A5 A6 A7 A8 A9] Hm. unfold cipherblock_generate. rewrite A2, Hm.
  cbn [assert_ N.eqb]. change (0 =? 0) with true. cbn [assert_]. rewrite bind_Ok.
  rewrite (pblk_split _ A5). rewrite A6. set (nb := be_bytes 8 nonce).
  assert (length nb = 8%nat) as Hnb by apply be_bytes_length.
  pose proof (N.div_mod pos 16 ltac:(lia)) as HD. rewrite Hm, N.add_0_r in HD.
  set (k := pos / 16) in *.
  destruct (N.eq_dec pos 0) as [E0|E0].
  - (* first block: re-encode *)
    assert (exists t x, skipn 8 (s_pblk st) = t ++ [x] /\ length t = 7%nat) as (t & x & Et & Lt).
    { exists (firstn 7 (skipn 8 (s_pblk st))), (sel (skipn 8 (s_pblk st)) 7).
      assert (length (skipn 8 (s_pblk st)) = 8%nat) as HL by (rewrite skipn_length; lia).
      set (l := skipn 8 (s_pblk st)) in *. clearbody l. clear -HL.
      do 8 (destruct l as [|? l]; [discriminate|]). destruct l; [split; reflexivity|discriminate]. }
    rewrite Et. rewrite rd_last by assumption. rewrite bind_Ok. change (sel [x] 0) with x.
    assert (x = 0xff) as ->.
    { specialize (A7 E0). rewrite (pblk_split _ A5), A6, Et in A7. unfold sel in A7.
      rewrite !app_nth2 in A7 by (fold nb; lia). fold nb in A7. rewrite Hnb, Lt in A7. exact A7. }
    change (w8 (0xff + 1)) with 0. rewrite wr_last by assumption. rewrite bind_Ok.
    change (0 =? 0) with true. cbv iota. rewrite be64enc_spec.
    rewrite wr_hi by (rewrite ?app_length, ?be_bytes_length; cbn [length]; lia). rewrite bind_Ok.
    rewrite (encrypt_block_rep hw key) by (auto; rewrite app_length, be_bytes_length; lia). rewrite bind_Ok.
    eexists. split; [reflexivity|]. constructor; cbn [s_key s_bytectr s_buf s_pblk].
    + exact A1.
    + reflexivity.
    + reflexivity.
    + rewrite app_length, be_bytes_length. lia.
    + rewrite firstn_app, Hnb, Nat.sub_diag, firstn_O, app_nil_r. apply firstn_all2. rewrite be_bytes_length. lia.
    + rewrite skipn_app, Hnb, Nat.sub_diag, skipn_all2 by lia. reflexivity.
  - assert (k <> 0) as Hk by lia.
    assert ((pos - 1) / 16 = k - 1) as HP.
    { symmetry. apply (N.div_unique _ 16 _ 15); lia. }
    rewrite A8 by exact E0. rewrite HP, be_bytes_8.
    rewrite rd_last by (rewrite ?be_bytes_length; auto). rewrite bind_Ok.
    change (sel [(k - 1) mod 256] 0) with ((k - 1) mod 256).
    rewrite wr_last by (rewrite ?be_bytes_length; auto). rewrite bind_Ok.
    assert (w8 ((k - 1) mod 256 + 1) = k mod 256) as ->.
    { rewrite w8_mod. change (2 ^ 8) with 256. rewrite N.add_mod_idemp_l by lia. f_equal. lia. }
    assert (forall pblk, pblk = nb ++ be_bytes 8 k -> exists st',
      (buf <- crypto_aes_encrypt_block hw pblk (s_key st);; Ok (mk_ctr (s_key st) pos buf pblk)) = Ok st' /\
      stream_gen hw key nonce pos st') as HF.
    { intros pblk ->. rewrite (encrypt_block_rep hw key) by (auto; rewrite app_length, be_bytes_length; lia). rewrite bind_Ok.
      eexists. split; [reflexivity|]. constructor; cbn [s_key s_bytectr s_buf s_pblk].
      + exact A1.
      + reflexivity.
      + reflexivity.
      + rewrite app_length, be_bytes_length. lia.
      + rewrite firstn_app, Hnb, Nat.sub_diag, firstn_O, app_nil_r. apply firstn_all2. rewrite be_bytes_length. lia.
      + rewrite skipn_app, Hnb, Nat.sub_diag, skipn_all2 by lia. reflexivity. }
    destruct (N.eqb_spec (k mod 256) 0) as [Ez|Ez].
    + rewrite be64enc_spec.
      rewrite wr_hi by (rewrite ?app_length, ?be_bytes_length; cbn [length]; lia). rewrite bind_Ok.
      apply HF. reflexivity.
    + rewrite bind_Ok. apply HF. rewrite be_bytes_8. do 3 f_equal.
      pose proof (N.div_mod k 256 ltac:(lia)). pose proof (N.mod_lt k 256 ltac:(lia)).
      symmetry. apply (N.div_unique _ 256 _ (k mod 256 - 1)); lia.
Qed.

(** Using n bytes of a generated block. *)
Lemma use_ok hw key nonce pos st inp n m :
  key_rep hw key (s_key st) -> s_bytectr st = pos -> pos mod 16 = N.of_nat m ->
  s_buf st = ctr_block key nonce (pos / 16) -> length (s_pblk st) = 16%nat ->
  firstn 8 (s_pblk st) = be_bytes 8 nonce -> skipn 8 (s_pblk st) = be_bytes 8 (pos / 16) ->
  (n <= length inp)%nat -> (m + n <= 16)%nat -> (0 < n)%nat -> pos + N.of_nat n < 2 ^ 64 ->
  exists st', cipherblock_use st inp n m = Ok (aes_ctr key nonce pos (firstn n inp), skipn n inp, st') /\
    stream_at hw key nonce (pos + N.of_nat n) st'.
Proof.
  intros HK HC HM HB HPL HN HCnt Hn Hmn Hpos HO. unfold cipherblock_use.
  pose proof (ctr_block_length key nonce (pos / 16) (proj1 HK)) as HL.
  rewrite rd_ok by lia. rewrite bind_Ok. rewrite rd_ok by (rewrite HB, HL; lia). rewrite bind_Ok.
  eexists. split.
  - do 2 f_equal. f_equal. rewrite HB. change (sub inp 0 n) with (firstn n inp).
    pose proof (N.div_mod pos 16 ltac:(lia)) as HD. rewrite HM in HD.
    rewrite HD at 2. rewrite aes_ctr_block; [|exact HL|rewrite firstn_length; lia].
    f_equal. f_equal. rewrite firstn_length. lia.
  - pose proof (N.div_mod pos 16 ltac:(lia)) as HD. rewrite HM in HD.
    constructor; cbn [s_key s_bytectr s_buf s_pblk]; auto.
    + rewrite HC. apply w64_small, HO.
    + rewrite HB. exact HL.
    + intros E; lia.
    + intros _. rewrite HCnt. f_equal. apply (N.div_unique _ 16 _ (N.of_nat (m + n - 1))); lia.
    + intros HX. rewrite HB. f_equal.
      assert (m + n < 16)%nat as Hlt.
      { destruct (Nat.eq_dec (m + n) 16) as [E|E]; [|lia]. exfalso. apply HX.
        symmetry. apply (N.mod_unique _ 16 (pos / 16 + 1)); lia. }
      apply (N.div_unique _ 16 _ (N.of_nat (m + n))); lia.
Qed.
Lemma gen_use_ok hw key nonce pos st inp n : stream_at hw key nonce pos st -> pos mod 16 = 0 ->
  (n <= length inp)%nat -> (n <= 16)%nat -> (0 < n)%nat -> pos + N.of_nat n < 2 ^ 64 ->
  exists st1 st', cipherblock_generate hw st = Ok st1 /\
    cipherblock_use st1 inp n 0 = Ok (aes_ctr key nonce pos (firstn n inp), skipn n inp, st') /\
    stream_at hw key nonce (pos + N.of_nat n) st'.
Proof.
  intros HA Hm Hn H16 H0 HO.
  destruct (generate_ok hw key nonce pos st HA Hm) as (st1 & E1 & [G1 G2 G3 G4 G5 G6]).
  destruct (use_ok hw key nonce pos st1 inp n 0) as (st' & E2 & HA'); auto.
  exists st1, st'. auto.
Qed.

Lemma pre_ok hw key nonce pos st inp : stream_at hw key nonce pos st -> pos + N.of_nat (length inp) < 2 ^ 64 ->
  exists fin inp1 st1 n, (n <= length inp)%nat /\ inp1 = skipn n inp /\
    pre_wholeblock st inp = Ok (fin, (aes_ctr key nonce pos (firstn n inp), inp1, st1)) /\
    stream_at hw key nonce (pos + N.of_nat n) st1 /\
    (fin = true -> n = length inp) /\ (fin = false -> (pos + N.of_nat n) mod 16 = 0).
Proof.
  intros HA HO. pose proof HA as [A1 A2 A3 A4 A5 A6 A7 A8 A9].
  unfold pre_wholeblock. rewrite A2.
  pose proof (N.mod_lt pos 16 ltac:(lia)) as Hlt.
  destruct (Nat.eqb_spec (N.to_nat (pos mod 16)) 0) as [E|E].
  - exists false, inp, st, 0%nat. change (N.of_nat 0) with 0. rewrite N.add_0_r.
    split; [lia|]. split; [reflexivity|]. split; [reflexivity|]. split; [exact HA|]. split; [discriminate|]. intros _. lia.
  - assert (pos mod 16 <> 0) as HM by lia.
    assert (pos mod 16 = N.of_nat (N.to_nat (pos mod 16))) as HM' by (rewrite N2Nat.id; reflexivity).
    set (m := N.to_nat (pos mod 16)) in *.
    assert ((pos - 1) / 16 = pos / 16) as HP.
    { pose proof (N.div_mod pos 16 ltac:(lia)). symmetry. apply (N.div_unique _ 16 _ (pos mod 16 - 1)); lia. }
    rewrite HP in A8.
    assert (pos <> 0) as Hp0. { intros ->. apply HM. reflexivity. }
    specialize (A8 Hp0). specialize (A9 HM).
    destruct (Nat.leb_spec (m + length inp) 16) as [Hle|Hgt].
    + destruct (Nat.eq_dec (length inp) 0) as [E0|E0].
      * destruct inp; [|discriminate].
        exists true, [], st, 0%nat. split; [cbn; lia|]. split; [reflexivity|].
        assert (cipherblock_use st [] (length (@nil N)) m = Ok ([], [], st)) as ->.
        { unfold cipherblock_use. cbn [length]. rewrite !rd_ok by (rewrite ?A4; cbn [length]; lia). rewrite !bind_Ok.
          unfold sub. cbn [skipn firstn xorl]. rewrite N.add_0_r. rewrite w64_small by lia. destruct st; reflexivity. }
        rewrite bind_Ok. change (N.of_nat 0) with 0. rewrite N.add_0_r.
        split; [reflexivity|]. split; [exact HA|]. split; [reflexivity|discriminate].
      * destruct (use_ok hw key nonce pos st inp (length inp) m) as (st' & E2 & HA'); auto; try lia.
        rewrite E2, bind_Ok. exists true, (skipn (length inp) inp), st', (length inp).
        split; [lia|]. split; [reflexivity|]. split; [reflexivity|]. split; [exact HA'|]. split; [reflexivity|discriminate].
    + destruct (use_ok hw key nonce pos st inp (16 - m) m) as (st' & E2 & HA'); auto; try lia.
      rewrite E2, bind_Ok. exists false, (skipn (16 - m) inp), st', (16 - m)%nat.
      split; [lia|]. split; [reflexivity|]. split; [reflexivity|]. split; [exact HA'|]. split; [discriminate|].
      intros _. pose proof (N.div_mod pos 16 ltac:(lia)). symmetry. apply (N.mod_unique _ 16 (pos / 16 + 1)); lia.
Qed.
Lemma post_ok hw key nonce pos st inp : stream_at hw key nonce pos st -> pos mod 16 = 0 -> (length inp < 16)%nat ->
  pos + N.of_nat (length inp) < 2 ^ 64 ->
  exists st', post_wholeblock hw st inp = Ok (aes_ctr key nonce pos inp, st') /\
    stream_at hw key nonce (pos + N.of_nat (length inp)) st'.
Proof.
  intros HA Hm HL HO. unfold post_wholeblock. destruct (Nat.ltb_spec 0 (length inp)) as [H0|H0].
  - destruct (gen_use_ok hw key nonce pos st inp (length inp) HA Hm ltac:(lia) ltac:(lia) ltac:(lia) HO) as (st1 & st' & E1 & E2 & HA').
    rewrite E1, bind_Ok, E2, bind_Ok. rewrite firstn_all. eauto.
  - destruct inp; [|cbn [length] in H0; lia]. exists st. cbn [length]. change (N.of_nat 0) with 0. rewrite N.add_0_r. auto.
Qed.
Lemma firstn_chunk {A} n m (l : list A) : firstn (n + m) l = firstn n l ++ firstn m (skipn n l).
Proof. rewrite <- (firstn_skipn n (firstn (n + m) l)). rewrite firstn_firstn, skipn_firstn_comm. f_equal; f_equal; lia. Qed.
Lemma mod16_step pos n : pos mod 16 = 0 -> (pos + 16 * n) mod 16 = 0.
Proof. intros H. rewrite N.mul_comm, N.mod_add by lia. exact H. Qed.
Lemma mod16_step1 pos : pos mod 16 = 0 -> (pos + 16) mod 16 = 0.
Proof. intros H. pose proof (mod16_step pos 1 H) as E. replace (pos + 16 * 1) with (pos + 16) in E by lia. exact E. Qed.

Lemma sw_ok hw key nonce : forall fuel pos st inp, stream_at hw key nonce pos st -> pos mod 16 = 0 ->
  (length inp <= fuel)%nat -> pos + N.of_nat (length inp) < 2 ^ 64 ->
  exists n st', (16 * n <= length inp)%nat /\ (length inp - 16 * n < 16)%nat /\
    wholeblocks_sw hw fuel st inp = Ok (aes_ctr key nonce pos (firstn (16 * n) inp), skipn (16 * n) inp, st') /\
    stream_at hw key nonce (pos + N.of_nat (16 * n)) st'.
Proof.
  induction fuel as [|fuel IH]; intros pos st inp HA Hm Hf HO; cbn [wholeblocks_sw].
  - destruct (Nat.leb_spec 16 (length inp)) as [Hx|Hx]; [lia|].
    exists 0%nat, st. change (N.of_nat (16 * 0)) with 0. rewrite N.add_0_r. split; [lia|]. split; [lia|]. split; [reflexivity|assumption].
  - destruct (Nat.leb_spec 16 (length inp)) as [Hx|Hx].
    2: { exists 0%nat, st. change (N.of_nat (16 * 0)) with 0. rewrite N.add_0_r. split; [lia|]. split; [lia|]. split; [reflexivity|assumption]. }
    destruct (gen_use_ok hw key nonce pos st inp 16 HA Hm ltac:(lia) ltac:(lia) ltac:(lia) ltac:(lia)) as (st1 & st2 & E1 & E2 & HA2).
    rewrite E1, bind_Ok, E2, bind_Ok.
    destruct (IH (pos + N.of_nat 16) st2 (skipn 16 inp) HA2) as (n & st3 & L1 & L2 & E3 & HA3).
    + apply mod16_step1, Hm.
    + rewrite skipn_length. lia.
    + rewrite skipn_length. lia.
    + rewrite skipn_length in L1, L2. rewrite E3, bind_Ok. exists (S n), st3. split; [lia|]. split; [lia|].
      split.
      * do 2 f_equal. replace (16 * S n)%nat with (16 + 16 * n)%nat by lia. f_equal.
        -- rewrite firstn_chunk, aes_ctr_app. do 2 f_equal. rewrite firstn_length. lia.
        -- rewrite skipn_skipn. f_equal. lia.
      * replace (pos + N.of_nat (16 * S n)) with (pos + N.of_nat 16 + N.of_nat (16 * n)) by lia. exact HA3.
Qed.

(** Hardware block loop. *)
Lemma hw_blocks_ok enc combine key nonce hk nbe :
  (forall inp, length inp = 16%nat -> enc inp hk = Ok (aes_encrypt key inp)) ->
  (forall a, length a = 8%nat -> combine nbe a = Ok (be_bytes 8 nonce ++ a)) ->
  (length key = 16 \/ length key = 32)%nat ->
  forall i ctr inp, (0 < i)%nat -> (16 * i <= length inp)%nat -> 16 * (ctr + N.of_nat i) < 2 ^ 64 ->
  hw_blocks enc combine i hk nbe ctr inp =
    Ok (aes_ctr key nonce (16 * ctr) (firstn (16 * i) inp), skipn (16 * i) inp, be_bytes 8 (ctr + N.of_nat i - 1)).
Proof.
  intros He Hc HL. induction i as [|i IH]; intros ctr inp Hi Hlen HO; [lia|]. cbn [hw_blocks].
  rewrite be64enc_spec, Hc by apply be_bytes_length. rewrite bind_Ok.
  rewrite He by (rewrite app_length, !be_bytes_length; reflexivity). rewrite bind_Ok.
  unfold vld16. rewrite rd_ok by lia. rewrite bind_Ok.
  assert (vxor (sub inp 0 16) (aes_encrypt key (be_bytes 8 nonce ++ be_bytes 8 ctr)) = aes_ctr key nonce (16 * ctr) (firstn 16 inp)) as ->.
  { fold (ctr_block key nonce ctr). pose proof (ctr_block_length key nonce ctr HL) as HB.
    rewrite <- (N.add_0_r (16 * ctr)). change 0 with (N.of_nat 0) at 1. rewrite aes_ctr_block by (rewrite ?firstn_length; auto; lia).
    unfold vxor. f_equal. rewrite firstn_length. replace (Nat.min 16 (length inp)) with 16%nat by lia.
    symmetry. apply sub_0_all. lia. }
  destruct i as [|i].
  - replace (16 * 1)%nat with 16%nat by lia. do 3 f_equal. lia.
  - rewrite w64_small by lia. rewrite IH; [|lia|rewrite skipn_length; lia|lia].
    rewrite bind_Ok. do 2 f_equal; [f_equal|].
    + replace (16 * S (S i))%nat with (16 + 16 * S i)%nat by lia. rewrite firstn_chunk, aes_ctr_app.
      do 2 f_equal. rewrite firstn_length. lia.
    + rewrite skipn_skipn. f_equal. lia.
    + f_equal. lia.
Qed.
Lemma hw_whole_ok hw hi key nonce pos st inp : hw <> AES_SOFTWARE -> stream_at hw key nonce pos st -> pos mod 16 = 0 ->
  (16 <= length inp)%nat -> pos + N.of_nat (length inp) < 2 ^ 64 ->
  exists n st', (16 * n <= length inp)%nat /\ (length inp - 16 * n < 16)%nat /\
    wholeblocks_hw hw hi st inp = Ok (aes_ctr key nonce pos (firstn (16 * n) inp), skipn (16 * n) inp, st') /\
    stream_at hw key nonce (pos + N.of_nat (16 * n)) st'.
Proof.
  intros Hhw [A1 A2 A3 A4 A5 A6 A7 A8 A9] Hm H16 HO.
  set (n := (length inp / 16)%nat).
  pose proof (Nat.div_mod (length inp) 16 ltac:(lia)) as HD. fold n in HD.
  pose proof (Nat.mod_upper_bound (length inp) 16 ltac:(lia)) as HD2.
  pose proof (N.div_mod pos 16 ltac:(lia)) as HE. rewrite Hm, N.add_0_r in HE.
  assert (0 < n)%nat as Hn by lia.
  destruct st as [k bc bf pb]. cbn [s_key s_bytectr s_buf s_pblk] in *. subst bc.
  assert (firstn 8 pb = sub pb 0 8) as Enb by reflexivity.
  destruct A1 as [HL HR].
  assert (length (sub pb 0 8) = 8%nat) as Lnb by (rewrite <- Enb, A6, be_bytes_length; reflexivity).
  exists n. unfold wholeblocks_hw. cbn [s_key s_bytectr s_buf s_pblk]. fold n.
  assert (forall out rest arr, out = aes_ctr key nonce pos (firstn (16 * n) inp) -> rest = skipn (16 * n) inp ->
    arr = be_bytes 8 (pos / 16 + N.of_nat n - 1) ->
    exists st', (16 * n <= length inp)%nat /\ (length inp - 16 * n < 16)%nat /\
    (pblk <- wr pb 8 arr;; Ok (out, rest, mk_ctr k (w64 (pos + w64 (16 * N.of_nat n))) bf pblk)) =
      Ok (aes_ctr key nonce pos (firstn (16 * n) inp), skipn (16 * n) inp, st') /\
    stream_at hw key nonce (pos + N.of_nat (16 * n)) st') as HF.
  { intros out rest arr -> -> ->. rewrite (pblk_split pb A5), A6.
    rewrite wr_hi by (rewrite ?be_bytes_length, ?skipn_length; lia). rewrite bind_Ok.
    eexists. split; [lia|]. split; [lia|]. split; [reflexivity|].
    constructor; cbn [s_key s_bytectr s_buf s_pblk].
    - split; [exact HL|exact HR].
    - rewrite (w64_small (16 * N.of_nat n)) by lia. rewrite w64_small by lia. lia.
    - lia.
    - exact A4.
    - rewrite app_length, !be_bytes_length. reflexivity.
    - rewrite firstn_app, be_bytes_length, Nat.sub_diag, firstn_O, app_nil_r. apply firstn_all2. rewrite be_bytes_length; lia.
    - lia.
    - intros _. rewrite skipn_app, be_bytes_length, Nat.sub_diag, skipn_all2 by (rewrite be_bytes_length; lia).
      cbn [skipn app]. f_equal. apply (N.div_unique _ 16 _ 15); lia.
    - intros HX. exfalso. apply HX. replace (N.of_nat (16 * n)) with (16 * N.of_nat n) by lia. apply mod16_step, Hm. }
  destruct hw; [contradiction| |]; destruct k as [?|hk]; cbn [key_rep] in HR; try contradiction.
  - unfold load_si64 at 1. rewrite rd_ok by lia. rewrite !bind_Ok.
    rewrite (hw_blocks_ok _ _ key nonce hk (sub pb 0 8 ++ hi)).
    + rewrite bind_Ok. apply HF; [rewrite <- HE|idtac|idtac]; reflexivity.
    + intros x Hx. apply aesni_encrypt_ok; assumption.
    + intros a Ha. unfold load_si64. rewrite rd_ok by lia. rewrite !bind_Ok. unfold unpacklo64. f_equal.
      rewrite firstn_app, Lnb, Nat.sub_diag, firstn_O, app_nil_r. rewrite firstn_all2 by lia.
      rewrite (sub_0_all a) by lia. rewrite firstn_app, Ha, Nat.sub_diag, firstn_O, app_nil_r. rewrite firstn_all2 by lia.
      rewrite <- Enb, A6. reflexivity.
    + exact HL.
    + exact Hn.
    + lia.
    + lia.
  - rewrite rd_ok by lia. rewrite !bind_Ok.
    rewrite (hw_blocks_ok _ _ key nonce hk (sub pb 0 8)).
    + rewrite bind_Ok. apply HF; [rewrite <- HE|idtac|idtac]; reflexivity.
    + intros x Hx. apply arm_encrypt_ok; assumption.
    + intros a Ha. rewrite rd_ok by lia. rewrite !bind_Ok. f_equal. rewrite (sub_0_all a) by lia.
      rewrite <- Enb, A6. reflexivity.
    + exact HL.
    + exact Hn.
    + lia.
    + lia.
Qed.

Theorem stream_ok hw hi key nonce pos st inp : stream_at hw key nonce pos st ->
  pos + N.of_nat (length inp) < 2 ^ 64 ->
  exists st', crypto_aesctr_stream hw hi st inp = Ok (aes_ctr key nonce pos inp, st') /\
    stream_at hw key nonce (pos + N.of_nat (length inp)) st'.
Proof.
  intros HA HO. unfold crypto_aesctr_stream.
  destruct (pre_ok hw key nonce pos st inp HA HO) as (fin & inp1 & st1 & n & Hn & -> & -> & HA1 & HT & HF).
  rewrite bind_Ok. destruct fin.
  - rewrite (HT eq_refl) in *. rewrite firstn_all. eauto.
  - specialize (HF eq_refl).
    assert (N.of_nat (length (skipn n inp)) = N.of_nat (length inp) - N.of_nat n) as HL1 by (rewrite skipn_length; lia).
    assert (exists m st2, (16 * m <= length (skipn n inp))%nat /\ (length (skipn n inp) - 16 * m < 16)%nat /\
      (if Nat.leb 16 (length inp) && match hw with AES_SOFTWARE => false | _ => true end
       then if Nat.leb 16 (length (skipn n inp)) then wholeblocks_hw hw hi st1 (skipn n inp) else Ok ([], skipn n inp, st1)
       else wholeblocks_sw hw (length (skipn n inp)) st1 (skipn n inp)) =
      Ok (aes_ctr key nonce (pos + N.of_nat n) (firstn (16 * m) (skipn n inp)), skipn (16 * m) (skipn n inp), st2) /\
      stream_at hw key nonce (pos + N.of_nat n + N.of_nat (16 * m)) st2) as (m & st2 & M1 & M2 & E2 & HA2).
    { destruct (Nat.leb 16 (length inp) && match hw with AES_SOFTWARE => false | _ => true end) eqn:Ehw.
      - destruct (Nat.leb_spec 16 (length (skipn n inp))) as [Hx|Hx].
        + apply hw_whole_ok; auto; [|lia]. intros ->. rewrite andb_false_r in Ehw. discriminate.
        + exists 0%nat, st1. change (N.of_nat (16 * 0)) with 0. rewrite N.add_0_r. split; [lia|]. split; [lia|]. split; [reflexivity|assumption].
      - apply sw_ok; auto; lia. }
    rewrite E2, bind_Ok.
    destruct (post_ok hw key nonce (pos + N.of_nat n + N.of_nat (16 * m)) st2 (skipn (16 * m) (skipn n inp)) HA2) as (st3 & E3 & HA3).
    + replace (N.of_nat (16 * m)) with (16 * N.of_nat m) by lia. apply mod16_step, HF.
    + rewrite (skipn_length (16 * m)). lia.
    + rewrite (skipn_length (16 * m)). lia.
    + rewrite E3, bind_Ok. exists st3. split.
      * do 2 f_equal. rewrite <- (firstn_skipn n inp) at 4. rewrite aes_ctr_app. f_equal.
        rewrite firstn_length. replace (Nat.min n (length inp)) with n by lia.
        rewrite <- (firstn_skipn (16 * m) (skipn n inp)) at 3. rewrite aes_ctr_app. do 2 f_equal.
        rewrite firstn_length. lia.
      * rewrite (skipn_length (16 * m)) in HA3.
        replace (pos + N.of_nat (length inp)) with (pos + N.of_nat n + N.of_nat (16 * m) + N.of_nat (length (skipn n inp) - 16 * m)) by lia.
        exact HA3.
Qed.

Lemma init2_ok hw key k nonce okey obuf opblk : key_rep hw key k -> length obuf = 16%nat -> length opblk = 16%nat ->
  exists st, crypto_aesctr_init2 (okey, obuf, opblk) (Some k) nonce = Ok st /\ stream_at hw key nonce 0 st.
Proof.
  intros HK HB HP. unfold crypto_aesctr_init2. rewrite be64enc_spec.
  rewrite wr_ok by (rewrite be_bytes_length; lia). rewrite bind_Ok.
  assert (upd opblk 0 (be_bytes 8 nonce) = be_bytes 8 nonce ++ skipn 8 opblk) as ->.
  { unfold upd. rewrite firstn_O. cbn [app]. rewrite be_bytes_length. reflexivity. }
  assert (exists t x, skipn 8 opblk = t ++ [x] /\ length t = 7%nat) as (t & x & Et & Lt).
  { exists (firstn 7 (skipn 8 opblk)), (sel (skipn 8 opblk) 7).
    assert (length (skipn 8 opblk) = 8%nat) as HL by (rewrite skipn_length; lia).
    set (l := skipn 8 opblk) in *. clearbody l. clear -HL.
    do 8 (destruct l as [|? l]; [discriminate|]). destruct l; [split; reflexivity|discriminate]. }
  rewrite Et. rewrite wr_last by (rewrite ?be_bytes_length; auto). rewrite bind_Ok.
  eexists. split; [reflexivity|]. constructor; cbn [s_key s_bytectr s_buf s_pblk].
  - exact HK.
  - reflexivity.
  - lia.
  - exact HB.
  - rewrite !app_length, be_bytes_length. cbn [length]. lia.
  - rewrite firstn_app, be_bytes_length, Nat.sub_diag, firstn_O, app_nil_r. apply firstn_all2. rewrite be_bytes_length; lia.
  - intros _. unfold sel. rewrite !app_nth2; rewrite ?be_bytes_length; try lia.
    rewrite Lt. reflexivity.
  - intros E; contradiction.
  - intros E. exfalso. apply E. reflexivity.
Qed.

Lemma stream_calls_ok hw hi key nonce : forall inps pos st, stream_at hw key nonce pos st ->
  pos + N.of_nat (length (concat inps)) < 2 ^ 64 ->
  exists outs st', stream_calls hw hi st inps = Ok (outs, st') /\
    concat outs = aes_ctr key nonce pos (concat inps) /\ map (@length N) outs = map (@length N) inps /\
    stream_at hw key nonce (pos + N.of_nat (length (concat inps))) st'.
Proof.
  induction inps as [|i t IH]; intros pos st HA HO; cbn [stream_calls concat].
  - exists [], st. cbn [length]. change (N.of_nat 0) with 0. rewrite N.add_0_r. auto.
  - cbn [concat] in HO. rewrite app_length in HO.
    destruct (stream_ok hw hi key nonce pos st i HA ltac:(lia)) as (st1 & -> & HA1). rewrite bind_Ok.
    destruct (IH (pos + N.of_nat (length i)) st1 HA1 ltac:(lia)) as (outs & st2 & -> & EC & EL & HA2). rewrite bind_Ok.
    eexists _, st2. split; [reflexivity|]. cbn [concat map]. rewrite EC, EL, aes_ctr_length, aes_ctr_app, app_length.
    split; [reflexivity|]. split; [reflexivity|]. replace (pos + N.of_nat (length i + length (concat t))) with (pos + N.of_nat (length i) + N.of_nat (length (concat t))) by lia. exact HA2.
Qed.
