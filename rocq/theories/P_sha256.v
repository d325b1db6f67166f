(** Streaming SHA-256, HMAC and PBKDF2 compute the standard functions. *)
From Verif Require Import Base SpecBytes SpecSHA M_endian P_endian M_sha256_tr P_sha256_tr
  M_simd M_sha256_hw P_sha256_hw M_sha256.

Global Opaque H256 K256 compress.

Lemma scratch_words_length junk n : length (scratch_words junk n) = n.
Proof. unfold scratch_words. rewrite map_length, seq_length. reflexivity. Qed.
Lemma scratch_bytes_length junk n : length (scratch_bytes junk n) = n.
Proof. unfold scratch_bytes. rewrite map_length, seq_length. reflexivity. Qed.
Lemma scratch_bytes_ok junk n : bytes_ok (scratch_bytes junk n).
Proof. apply Forall_map, Forall_forall. intros i _. apply w8_lt. Qed.

Lemma transform_correct hw junk state block :
  length state = 8%nat -> length block = 64%nat -> bytes_ok block ->
  transform hw junk state block = Ok (compress state block).
Proof.
  intros Hs Hb Hok. unfold transform, SHA256_Transform, tmpW.
  pose proof (scratch_words_length junk 64) as HW.
  destruct hw.
  - apply SHA256_Transform_sw_correct; auto.
  - apply SHA256_Transform_shani_correct; auto.
  - apply SHA256_Transform_sse2_correct; auto.
  - apply SHA256_Transform_arm_correct; auto.
Qed.

Lemma sha_blocks_app H a b : (length a mod 64 = 0)%nat ->
  sha_blocks H (a ++ b) = sha_blocks (sha_blocks H a) b.
Proof.
  intros Ha. revert H. pattern a. apply (blocks_ind 64); auto; [lia|].
  intros x l Hx _ IH H. rewrite <- app_assoc. unfold sha_blocks in *.
  rewrite !(chunks_app_block 64 x) by (auto; lia). cbn [fold_left]. apply IH.
Qed.
Lemma sha_blocks_one H b : length b = 64%nat -> sha_blocks H b = compress H b.
Proof.
  intros Hb. unfold sha_blocks. rewrite chunks_short; try lia; [reflexivity|].
  destruct b; discriminate.
Qed.
Lemma sha_blocks_length H l : length (sha_blocks H l) = length H.
Proof.
  unfold sha_blocks. revert H. induction (chunks 64 l) as [|b cs IH]; intros H; simpl; auto.
  rewrite IH. apply compress_length.
Qed.
Lemma H256_length : length H256 = 8%nat.
Proof. rewrite <- initial_state_spec. reflexivity. Qed.

(** What the context means: it has absorbed exactly the bytes [m]. *)
Definition sha_inv (ctx : sha_ctx) (m : bytes) : Prop :=
  exists A B tl, m = A ++ B /\ (length A mod 64 = 0)%nat /\ (length B < 64)%nat /\
    c_state ctx = sha_blocks H256 A /\ c_buf ctx = B ++ tl /\ length (B ++ tl) = 64%nat /\
    c_count ctx = w64 (8 * N.of_nat (length m)) /\ bytes_ok m.

Lemma app_mod64 (A B : bytes) : (length A mod 64 = 0)%nat -> (length B < 64)%nat ->
  (length (A ++ B) mod 64 = length B)%nat.
Proof.
  intros HA HB. rewrite app_length.
  rewrite Nat.add_mod, HA, Nat.add_0_l, Nat.mod_mod, Nat.mod_small by lia. reflexivity.
Qed.

Lemma count_r n : N.to_nat (N.land (N.shiftr (w64 (8 * N.of_nat n)) 3) 0x3f) = (n mod 64)%nat.
Proof.
  rewrite w64_mod. change 0x3f with (N.ones 6). rewrite N.land_ones, N.shiftr_div_pow2.
  assert (((8 * N.of_nat n) mod 2 ^ 64) / 2 ^ 3 = N.of_nat n mod 2 ^ 61) as ->.
  { change (2 ^ 64) with (8 * 2 ^ 61). rewrite N.mul_mod_distr_l by discriminate.
    change (2 ^ 3) with 8. rewrite N.mul_comm, N.div_mul by discriminate. reflexivity. }
  assert ((N.of_nat n mod 2 ^ 61) mod 2 ^ 6 = N.of_nat n mod 64) as ->.
  { change (2 ^ 61) with (2 ^ 6 * 2 ^ 55). rewrite N.mod_mul_r by discriminate.
    rewrite N.add_comm, N.mul_comm, N.add_comm, N.mod_add by discriminate. change (2 ^ 6) with 64.
    apply N.mod_mod. discriminate. }
  change 64 with (N.of_nat 64). rewrite <- Nat2N.inj_mod. apply Nat2N.id.
Qed.

Lemma SHA256_Init_inv ctx : length (c_buf ctx) = 64%nat -> sha_inv (SHA256_Init ctx) [].
Proof.
  intros H. exists [], [], (c_buf ctx). unfold SHA256_Init. cbn [c_state c_buf c_count app length].
  split; [reflexivity|]. split; [reflexivity|]. split; [lia|].
  split; [rewrite initial_state_spec; reflexivity|].
  split; [reflexivity|]. split; [exact H|]. split; [reflexivity|constructor].
Qed.

Lemma sha_inv_buf_length ctx m : sha_inv ctx m -> length (c_buf ctx) = 64%nat.
Proof. intros (A & B & tl & _ & _ & _ & _ & Hb & HL & _). rewrite Hb. exact HL. Qed.

Lemma update_blocks_spec hw junk fuel state src :
  length state = 8%nat -> (length src <= fuel)%nat -> bytes_ok src ->
  exists A B, src = A ++ B /\ (length A mod 64 = 0)%nat /\ (length B < 64)%nat /\
    update_blocks hw junk fuel state src = Ok (sha_blocks state A, B).
Proof.
  revert state src. induction fuel as [|f IH]; intros state src Hs Hf Hok.
  - destruct src; [|simpl in Hf; lia]. exists [], []. repeat split; auto. simpl; lia.
  - cbn [update_blocks]. destruct (Nat.leb_spec 64 (length src)) as [H|H].
    + rewrite rd_ok by lia. cbn [bind].
      assert (length (sub src 0 64) = 64%nat) as HL by (apply sub_length; lia).
      rewrite transform_correct by (auto; apply Forall_sub; exact Hok). cbn [bind].
      destruct (IH (compress state (sub src 0 64)) (skipn 64 src)) as (A & B & E & HA & HB & HU).
      * rewrite compress_length. exact Hs.
      * rewrite skipn_length. lia.
      * apply Forall_skipn. exact Hok.
      * exists (sub src 0 64 ++ A), B. repeat split; auto.
        -- rewrite <- app_assoc, <- E. unfold sub. rewrite skipn_O. symmetry. apply firstn_skipn.
        -- rewrite app_length, HL, Nat.add_mod, HA by lia. reflexivity.
        -- rewrite HU. rewrite sha_blocks_app by (rewrite HL; reflexivity).
           rewrite (sha_blocks_one state) by exact HL. reflexivity.
    + exists [], src. repeat split; auto.
Qed.

Lemma update_count n len :
  w64 (w64 (8 * N.of_nat n) + w64 (N.shiftl (N.of_nat len) 3)) = w64 (8 * N.of_nat (n + len)).
Proof.
  rewrite !w64_mod, N.shiftl_mul_pow2.
  rewrite <- N.add_mod by discriminate. f_equal. change (2 ^ 3) with 8. lia.
Qed.

Lemma SHA256_Update_inv hw junk ctx m d : sha_inv ctx m -> bytes_ok d ->
  exists ctx', SHA256_Update hw junk ctx d = Ok ctx' /\ sha_inv ctx' (m ++ d).
Proof.
  intros (A & B & tl & Em & HA & HB & Hst & Hbuf & Hlen & Hcnt & Hok) Hd.
  unfold SHA256_Update.
  destruct (Nat.eqb_spec (length d) 0) as [H0|H0].
  - exists ctx. split; auto. destruct d; [|discriminate]. rewrite app_nil_r.
    exists A, B, tl. tauto.
  - rewrite Hcnt, count_r, Hbuf, Hst.
    assert (length m mod 64 = length B)%nat as -> by (rewrite Em; apply app_mod64; auto).
    assert (bytes_ok A /\ bytes_ok B) as [HokA HokB] by (rewrite Em in Hok; apply bytes_ok_app; exact Hok).
    rewrite app_length in Hlen.
    rewrite update_count, <- app_length.
    destruct (Nat.ltb_spec (length d) (64 - length B)) as [H1|H1].
    + rewrite wr_ok by (rewrite app_length; lia). cbn [bind].
      eexists; split; [reflexivity|].
      exists A, (B ++ d), (skipn (length d) tl). cbn [c_state c_buf c_count].
      repeat split; auto.
      * rewrite Em, <- app_assoc. reflexivity.
      * rewrite app_length; lia.
      * rewrite <- (firstn_skipn (length d) tl) at 1.
        rewrite upd_app by (rewrite firstn_length; lia). apply app_assoc.
      * rewrite !app_length, skipn_length. lia.
      * apply bytes_ok_app; auto.
    + rewrite rd_ok by lia. cbn [bind].
      set (part := sub d 0 (64 - length B)).
      assert (length part = 64 - length B)%nat as Hp by (apply sub_length; lia).
      rewrite wr_ok by (rewrite app_length; lia). cbn [bind].
      assert (upd (B ++ tl) (length B) part = B ++ part) as ->.
      { rewrite <- (app_nil_r tl). rewrite upd_app by lia. rewrite app_nil_r. reflexivity. }
      rewrite rd_ok by (rewrite app_length; lia). cbn [bind].
      rewrite sub_0_all by (rewrite app_length; lia).
      assert (bytes_ok part) as Hpok by (apply Forall_sub; exact Hd).
      assert (length (B ++ part) = 64)%nat as HBp by (rewrite app_length; lia).
      rewrite transform_correct; [|rewrite sha_blocks_length; apply H256_length|exact HBp|
        apply bytes_ok_app; auto].
      cbn [bind].
      destruct (update_blocks_spec hw junk (length d) (compress (sha_blocks H256 A) (B ++ part))
        (skipn (64 - length B) d)) as (A' & B' & E' & HA' & HB' & HU).
      { rewrite compress_length, sha_blocks_length. apply H256_length. }
      { rewrite skipn_length. lia. }
      { apply Forall_skipn. exact Hd. }
      rewrite HU. cbn [bind].
      rewrite wr_ok by (rewrite HBp; simpl; lia). cbn [bind].
      eexists; split; [reflexivity|].
      exists (A ++ (B ++ part) ++ A'), B', (skipn (length B') (B ++ part)).
      cbn [c_state c_buf c_count].
      assert (d = part ++ A' ++ B') as Ed.
      { rewrite <- E'. unfold part, sub. rewrite skipn_O. symmetry. apply firstn_skipn. }
      repeat split; auto.
      * rewrite Em. rewrite Ed at 1. rewrite <- !app_assoc. reflexivity.
      * rewrite !app_length. rewrite app_length in HBp. rewrite HBp.
        rewrite Nat.add_mod, HA by lia. rewrite (Nat.add_mod 64), HA' by lia. reflexivity.
      * rewrite sha_blocks_app by exact HA. rewrite sha_blocks_app by (rewrite HBp; reflexivity).
        rewrite (sha_blocks_one _ (B ++ part)) by exact HBp. reflexivity.
      * rewrite app_length, skipn_length. lia.
      * apply bytes_ok_app; auto.
Qed.

Lemma be_bytes_mod n x : be_bytes n (x mod 256 ^ N.of_nat n) = be_bytes n x.
Proof.
  rewrite <- be_val_be_bytes.
  rewrite <- (be_bytes_length n x) at 1. apply be_bytes_be_val, be_bytes_ok.
Qed.

Lemma be64enc_w64 x : be64enc (w64 x) = be_bytes 8 x.
Proof. rewrite be64enc_spec, w64_mod. apply (be_bytes_mod 8). Qed.

Lemma bytes_ok_repeat b n : b < 256 -> bytes_ok (repeat b n).
Proof. intros H. induction n as [|n IH]; simpl; constructor; auto. Qed.

Lemma PAD_prefix k : (0 < k <= 64)%nat -> rd PAD 0 k = Ok (0x80 :: zeros (k - 1)).
Proof.
  intros H. rewrite rd_ok by (unfold PAD; simpl; lia). f_equal.
  unfold sub, PAD, zeros. rewrite skipn_O. destruct k as [|k]; [lia|].
  cbn [firstn]. f_equal. rewrite Nat.sub_0_r, Nat.sub_succ || idtac.
  replace (S k - 1)%nat with k by lia.
  replace 63%nat with (k + (63 - k))%nat by lia. rewrite repeat_app.
  rewrite firstn_app, repeat_length, Nat.sub_diag, firstn_O, app_nil_r.
  apply firstn_all2. rewrite repeat_length. lia.
Qed.

Lemma upd_tail {A} (a b d : list A) : length b = length d -> upd (a ++ b) (length a) d = a ++ d.
Proof.
  intros H. rewrite <- (app_nil_r b). rewrite upd_app by exact H. rewrite app_nil_r. reflexivity.
Qed.

Lemma upd_tail' {A} (a b d : list A) o : o = length a -> length b = length d -> upd (a ++ b) o d = a ++ d.
Proof. intros ->. apply upd_tail. Qed.

Lemma SHA256_Pad_correct hw junk ctx m : sha_inv ctx m ->
  exists ctx', SHA256_Pad hw junk ctx = Ok ctx' /\ c_state ctx' = sha_blocks H256 (sha_pad m) /\
    length (c_buf ctx') = 64%nat.
Proof.
  intros (A & B & tl & Em & HA & HB & Hst & Hbuf & Hlen & Hcnt & Hok).
  unfold SHA256_Pad. rewrite Hcnt, count_r, Hbuf, Hst.
  assert (length m mod 64 = length B)%nat as Er by (rewrite Em; apply app_mod64; auto).
  rewrite Er.
  assert (bytes_ok A /\ bytes_ok B) as [HokA HokB] by (rewrite Em in Hok; apply bytes_ok_app; exact Hok).
  assert (length (sha_blocks H256 A) = 8%nat) as HSL by (rewrite sha_blocks_length; apply H256_length).
  rewrite app_length in Hlen.
  assert (forall k, bytes_ok (zeros k)) as Hz by (intros; apply bytes_ok_repeat; reflexivity).
  assert (length (be_bytes 8 (8 * N.of_nat (length m))) = 8%nat) as HE by apply be_bytes_length.
  assert (bytes_ok (be_bytes 8 (8 * N.of_nat (length m)))) as HEok by apply be_bytes_ok.
  destruct (Nat.ltb_spec (length B) 56) as [H|H].
  - rewrite PAD_prefix by lia. cbn [bind].
    assert (length (0x80%N :: zeros (56 - length B - 1)) = 56 - length B)%nat as HL1
      by (cbn [length]; unfold zeros; rewrite repeat_length; lia).
    rewrite wr_ok by (rewrite app_length; lia). cbn [bind].
    rewrite <- (firstn_skipn (56 - length B) tl).
    rewrite upd_app by (rewrite firstn_length; lia).
    set (P := 0x80 :: zeros (56 - length B - 1)) in *.
    assert (length (skipn (56 - length B) tl) = 8)%nat as HL2 by (rewrite skipn_length; lia).
    rewrite be64enc_w64.
    rewrite wr_ok by (rewrite !app_length; lia). cbn [bind].
    rewrite app_assoc.
    assert (length (B ++ P) = 56)%nat as HBP by (rewrite app_length; lia).
    match goal with |- context [upd (_ ++ ?R) 56 ?E] =>
      assert (upd ((B ++ P) ++ R) 56 E = (B ++ P) ++ E) as -> by (apply upd_tail'; lia) end.
    rewrite rd_ok by (rewrite !app_length; lia). cbn [bind].
    assert (length ((B ++ P) ++ be_bytes 8 (8 * N.of_nat (length m))) = 64)%nat as HF
      by (rewrite !app_length; lia).
    rewrite sub_0_all by lia.
    rewrite transform_correct; [|exact HSL|exact HF|].
    2:{ rewrite !bytes_ok_app. repeat split; auto. unfold P. constructor; [reflexivity|apply Hz]. }
    cbn [bind]. eexists; split; [reflexivity|]. cbn [c_state c_buf]. split; [|exact HF].
    assert (sha_pad m = A ++ B ++ [0x80] ++ zeros (padzeros (length m)) ++ be_bytes 8 (8 * N.of_nat (length m))) as ->.
    { unfold sha_pad. generalize (zeros (padzeros (length m)) ++ be_bytes 8 (8 * N.of_nat (length m))).
      intros z. rewrite Em, <- app_assoc. reflexivity. }
    rewrite sha_blocks_app by exact HA.
    replace (B ++ [0x80] ++ zeros (padzeros (length m)) ++ be_bytes 8 (8 * N.of_nat (length m)))
      with ((B ++ P) ++ be_bytes 8 (8 * N.of_nat (length m))).
    2:{ unfold P, padzeros. rewrite Er.
        replace ((119 - length B) mod 64)%nat with (56 - length B - 1)%nat.
        - rewrite <- app_assoc. reflexivity.
        - replace (119 - length B)%nat with (55 - length B + 1 * 64)%nat by lia.
          rewrite Nat.mod_add, Nat.mod_small by lia. lia. }
    rewrite (sha_blocks_one (sha_blocks H256 A)) by exact HF. reflexivity.
  - rewrite PAD_prefix by lia. cbn [bind].
    assert (length (0x80%N :: zeros (64 - length B - 1)) = 64 - length B)%nat as HL1
      by (cbn [length]; unfold zeros; rewrite repeat_length; lia).
    rewrite wr_ok by (rewrite app_length; lia). cbn [bind].
    set (P := 0x80 :: zeros (64 - length B - 1)) in *.
    rewrite upd_tail by lia.
    rewrite rd_ok by (rewrite app_length; lia). cbn [bind].
    assert (length (B ++ P) = 64)%nat as HBP by (rewrite app_length; lia).
    rewrite sub_0_all by lia.
    assert (bytes_ok (B ++ P)) as HBPok.
    { apply bytes_ok_app. split; auto. unfold P. constructor; [reflexivity|apply Hz]. }
    rewrite transform_correct by auto. cbn [bind].
    rewrite wr_ok by (rewrite HBP, repeat_length; lia). cbn [bind].
    rewrite be64enc_w64.
    assert (length (upd (B ++ P) 0 (repeat 0 56)) = 64%nat) as HU
      by (rewrite upd_length; rewrite ?repeat_length; lia).
    rewrite wr_ok by lia. cbn [bind].
    assert (upd (upd (B ++ P) 0 (repeat 0 56)) 56 (be_bytes 8 (8 * N.of_nat (length m)))
       = zeros 56 ++ be_bytes 8 (8 * N.of_nat (length m))) as ->.
    { unfold upd at 2. rewrite firstn_O, app_nil_l, repeat_length.
      apply upd_tail'; [reflexivity|]. rewrite skipn_length. lia. }
    assert (length (zeros 56 ++ be_bytes 8 (8 * N.of_nat (length m))) = 64%nat) as HF
      by (rewrite app_length; unfold zeros; rewrite repeat_length; lia).
    rewrite rd_ok by lia. cbn [bind].
    rewrite sub_0_all by lia.
    rewrite transform_correct; [|rewrite compress_length; exact HSL|exact HF|].
    2:{ apply bytes_ok_app. auto. }
    cbn [bind]. eexists; split; [reflexivity|]. cbn [c_state c_buf]. split; [|exact HF].
    assert (sha_pad m = A ++ B ++ [0x80] ++ zeros (padzeros (length m)) ++ be_bytes 8 (8 * N.of_nat (length m))) as ->.
    { unfold sha_pad. generalize (zeros (padzeros (length m)) ++ be_bytes 8 (8 * N.of_nat (length m))).
      intros z. rewrite Em, <- app_assoc. reflexivity. }
    rewrite sha_blocks_app by exact HA.
    replace (B ++ [0x80] ++ zeros (padzeros (length m)) ++ be_bytes 8 (8 * N.of_nat (length m)))
      with ((B ++ P) ++ zeros 56 ++ be_bytes 8 (8 * N.of_nat (length m))).
    2:{ unfold P, padzeros. rewrite Er.
        replace ((119 - length B) mod 64)%nat with (64 - length B - 1 + 56)%nat
          by (rewrite Nat.mod_small by lia; lia).
        unfold zeros. rewrite repeat_app. rewrite <- !app_assoc. reflexivity. }
    rewrite sha_blocks_app by (rewrite HBP; reflexivity).
    rewrite (sha_blocks_one _ (B ++ P)) by exact HBP. rewrite (sha_blocks_one (compress _ _)) by exact HF. reflexivity.
Qed.

Lemma SHA256_Final_internal_correct hw junk ctx m : sha_inv ctx m ->
  exists ctx', SHA256_Final_internal hw junk ctx = Ok (sha256 m, ctx') /\ length (c_buf ctx') = 64%nat.
Proof.
  intros H. unfold SHA256_Final_internal.
  destruct (SHA256_Pad_correct hw junk ctx m H) as (ctx' & -> & Hs & Hb). cbn [bind].
  assert (length (c_state ctx') = 8%nat) as HL by (rewrite Hs, sha_blocks_length; apply H256_length).
  unfold be32enc_vect. change (assert_ (Nat.eqb (32 mod 4) 0)) with (Ok tt). cbn [bind].
  change (32 / 4)%nat with 8%nat. rewrite rd_ok by lia. cbn [bind]. rewrite sub_0_all by lia.
  exists ctx'. split; auto. f_equal. f_equal. unfold sha256, words_bytes. rewrite Hs.
  apply flat_map_ext. intros; apply be32enc_spec.
Qed.

Lemma words_bytes_length ws : length (words_bytes ws) = (4 * length ws)%nat.
Proof.
  unfold words_bytes. induction ws as [|w ws IH]; auto.
  cbn [flat_map length]. rewrite app_length, be_bytes_length, IH. lia.
Qed.
Lemma sha256_length m : length (sha256 m) = 32%nat.
Proof. unfold sha256. rewrite words_bytes_length, sha_blocks_length, H256_length. reflexivity. Qed.
Lemma sha256_ok m : bytes_ok (sha256 m).
Proof.
  unfold sha256, words_bytes. generalize (sha_blocks H256 (sha_pad m)). intros ws.
  induction ws as [|w ws IH]; cbn [flat_map]; [constructor|].
  apply bytes_ok_app. split; auto. apply be_bytes_ok.
Qed.

Lemma sha_junk_buf junk : length (c_buf (sha_junk junk)) = 64%nat.
Proof. apply scratch_bytes_length. Qed.

Theorem SHA256_Buf_correct hw junk m : bytes_ok m -> SHA256_Buf hw junk m = Ok (sha256 m).
Proof.
  intros Hm. unfold SHA256_Buf.
  destruct (SHA256_Update_inv hw junk (SHA256_Init (sha_junk junk)) [] m) as (c & -> & Hc); auto.
  { apply SHA256_Init_inv. apply sha_junk_buf. }
  cbn [bind]. destruct (SHA256_Final_internal_correct hw junk c m Hc) as (c' & -> & _). reflexivity.
Qed.

(** any sequence of updates *)
Fixpoint sha_updates hw junk (ctx : sha_ctx) (ds : list bytes) : res sha_ctx :=
  match ds with
  | [] => Ok ctx
  | d :: t => c <- SHA256_Update hw junk ctx d ;; sha_updates hw junk c t
  end.
Lemma sha_updates_inv hw junk ds ctx m : sha_inv ctx m -> Forall bytes_ok ds ->
  exists ctx', sha_updates hw junk ctx ds = Ok ctx' /\ sha_inv ctx' (m ++ concat ds).
Proof.
  revert ctx m; induction ds as [|d ds IH]; intros ctx m H Hok.
  - exists ctx. simpl. rewrite app_nil_r. auto.
  - inversion Hok; subst. cbn [sha_updates].
    destruct (SHA256_Update_inv hw junk ctx m d) as (c & -> & Hc); auto. cbn [bind].
    destruct (IH c (m ++ d) Hc) as (c' & E & Hc'); auto. exists c'. split; auto.
    cbn [concat]. rewrite app_assoc. exact Hc'.
Qed.

(* ---------------- HMAC ---------------- *)
Lemma pad_xor_spec n i pad K : (i + n <= length pad)%nat -> (i + n <= length K)%nat ->
  pad_xor n i pad K = Ok (upd pad i (xorl (sub pad i n) (sub K i n))).
Proof.
  revert i pad; induction n as [|n IH]; intros i pad Hp HK.
  - unfold sub. cbn [pad_xor firstn xorl]. unfold upd. simpl. rewrite Nat.add_0_r, firstn_skipn. reflexivity.
  - cbn [pad_xor]. rewrite !rd_ok by lia. cbn [bind].
    rewrite wr_ok by (simpl; lia). cbn [bind].
    rewrite IH by (rewrite ?upd_length; simpl; lia). f_equal.
    set (x := N.lxor _ _).
    assert (forall l : bytes, (i + S n <= length l)%nat -> sub l i (S n) = sel (sub l i 1) 0 :: sub l (S i) n) as HS.
    { intros l Hl. unfold sub. replace (S i) with (1 + i)%nat by lia. rewrite <- skipn_skipn.
      destruct (skipn i l) eqn:E; [apply (f_equal (@length N)) in E; rewrite skipn_length in E; simpl in E; lia|].
      reflexivity. }
    rewrite (HS pad) by lia. rewrite (HS K) by lia. cbn [xorl]. fold x.
    set (xs := xorl (sub pad (S i) n) (sub K (S i) n)).
    replace (sub (upd pad i [x]) (S i) n) with (sub pad (S i) n).
    2:{ unfold sub, upd. rewrite app_assoc, skipn_app, app_length, firstn_length. cbn [length].
        replace (S i - (Nat.min i (length pad) + 1))%nat with 0%nat by lia.
        rewrite (skipn_all2 (firstn i pad ++ [x])) by (rewrite app_length, firstn_length; simpl; lia).
        rewrite Nat.add_1_r. reflexivity. }
    fold xs. change (x :: xs) with ([x] ++ xs). rewrite <- upd_adjacent by (simpl; lia).
    f_equal. simpl. lia.
Qed.

Lemma xorl_repeat b K n : (length K <= n)%nat ->
  xorl (repeat b (length K)) K = map (N.lxor b) K.
Proof.
  intros _. induction K as [|k K IH]; simpl; auto. rewrite IH. reflexivity.
Qed.

Lemma pad_xor_hmac b K : (length K <= 64)%nat ->
  pad_xor (length K) 0 (repeat b 64) K = Ok (map (N.lxor b) (K ++ zeros (64 - length K))).
Proof.
  intros HK. rewrite pad_xor_spec by (rewrite ?repeat_length; lia). f_equal.
  rewrite (sub_0_all K) by reflexivity.
  unfold sub. rewrite skipn_O.
  replace 64%nat with (length K + (64 - length K))%nat at 1 2 by lia.
  rewrite repeat_app, firstn_app, repeat_length, Nat.sub_diag, firstn_O, app_nil_r.
  rewrite (firstn_all2 (repeat b (length K))) by (rewrite repeat_length; lia).
  rewrite (xorl_repeat b K 64) by lia.
  unfold upd. rewrite firstn_O, app_nil_l, map_length, Nat.add_0_l, map_app. f_equal.
  rewrite skipn_app, repeat_length, Nat.sub_diag, skipn_O.
  rewrite skipn_all2 by (rewrite repeat_length; lia). rewrite app_nil_l.
  unfold zeros. generalize (64 - length K)%nat. intros n.
  induction n as [|n IH]; simpl; auto. rewrite <- IH, N.lxor_0_r. reflexivity.
Qed.

Definition ipad (K : bytes) := map (N.lxor 0x36) (hmac_key K).
Definition opad (K : bytes) := map (N.lxor 0x5c) (hmac_key K).

Definition hmac_inv (ctx : hmac_ctx) (K m : bytes) : Prop :=
  sha_inv (h_ictx ctx) (ipad K ++ m) /\ sha_inv (h_octx ctx) (opad K).

Lemma hmac_key_ok K : bytes_ok K -> bytes_ok (hmac_key K).
Proof.
  intros HK. unfold hmac_key. apply bytes_ok_app. split.
  - destruct (Nat.ltb 64 (length K)); auto. apply sha256_ok.
  - apply bytes_ok_repeat. reflexivity.
Qed.
Lemma hmac_key_length K : length (hmac_key K) = 64%nat.
Proof.
  unfold hmac_key. rewrite app_length. unfold zeros. rewrite repeat_length.
  destruct (Nat.ltb_spec 64 (length K)); rewrite ?sha256_length; lia.
Qed.
Lemma map_lxor_ok b l : b < 256 -> bytes_ok l -> bytes_ok (map (N.lxor b) l).
Proof.
  intros Hb Hl. apply Forall_map. eapply Forall_impl; [|exact Hl].
  intros a Ha. change 256 with (2 ^ 8). apply lxor_lt; assumption.
Qed.
Lemma ipad_ok K : bytes_ok K -> bytes_ok (ipad K).
Proof. intros. apply map_lxor_ok; [reflexivity|apply hmac_key_ok; auto]. Qed.
Lemma opad_ok K : bytes_ok K -> bytes_ok (opad K).
Proof. intros. apply map_lxor_ok; [reflexivity|apply hmac_key_ok; auto]. Qed.

Lemma HMAC_Init_correct hw junk ctx K :
  length (c_buf (h_ictx ctx)) = 64%nat -> length (c_buf (h_octx ctx)) = 64%nat -> bytes_ok K ->
  exists ctx', HMAC_SHA256_Init hw junk ctx K = Ok ctx' /\ hmac_inv ctx' K [].
Proof.
  intros Hi Ho HK. unfold HMAC_SHA256_Init.
  set (K0 := if Nat.ltb 64 (length K) then sha256 K else K).
  assert (exists ic, HMAC_hash_key hw junk (h_ictx ctx) K = Ok (ic, K0) /\ length (c_buf ic) = 64%nat)
    as (ic & -> & Hic).
  { unfold HMAC_hash_key, K0. destruct (Nat.ltb 64 (length K)).
    - destruct (SHA256_Update_inv hw junk (SHA256_Init (h_ictx ctx)) [] K) as (c & -> & Hc); auto.
      { apply SHA256_Init_inv; auto. }
      cbn [bind]. destruct (SHA256_Final_internal_correct hw junk c K Hc) as (c' & -> & Hb).
      cbn [bind]. eauto.
    - eauto. }
  cbn [bind].
  assert (length K0 <= 64)%nat as HL0.
  { unfold K0. destruct (Nat.ltb_spec 64 (length K)); rewrite ?sha256_length; lia. }
  rewrite !pad_xor_hmac by exact HL0. cbn [bind].
  change (K0 ++ zeros (64 - length K0)) with (hmac_key K).
  fold (ipad K). fold (opad K).
  destruct (SHA256_Update_inv hw junk (SHA256_Init ic) [] (ipad K)) as (c1 & -> & Hc1).
  { apply SHA256_Init_inv; auto. } { apply ipad_ok; auto. }
  cbn [bind].
  destruct (SHA256_Update_inv hw junk (SHA256_Init (h_octx ctx)) [] (opad K)) as (c2 & -> & Hc2).
  { apply SHA256_Init_inv; auto. } { apply opad_ok; auto. }
  cbn [bind]. eexists; split; [reflexivity|]. split; cbn [h_ictx h_octx]; [rewrite app_nil_r|]; assumption.
Qed.

Lemma HMAC_Update_correct hw junk ctx K m d : hmac_inv ctx K m -> bytes_ok d ->
  exists ctx', HMAC_SHA256_Update hw junk ctx d = Ok ctx' /\ hmac_inv ctx' K (m ++ d).
Proof.
  intros [Hi Ho] Hd. unfold HMAC_SHA256_Update.
  destruct (SHA256_Update_inv hw junk (h_ictx ctx) (ipad K ++ m) d) as (c & -> & Hc); auto.
  cbn [bind]. eexists; split; [reflexivity|]. split; cbn [h_ictx h_octx]; auto.
  rewrite app_assoc. exact Hc.
Qed.

Lemma HMAC_Final_internal_correct hw junk ctx K m : hmac_inv ctx K m ->
  HMAC_SHA256_Final_internal hw junk ctx = Ok (hmac K m).
Proof.
  intros [Hi Ho]. unfold HMAC_SHA256_Final_internal.
  destruct (SHA256_Final_internal_correct hw junk _ _ Hi) as (c & -> & _). cbn [bind].
  destruct (SHA256_Update_inv hw junk _ _ (sha256 (ipad K ++ m)) Ho (sha256_ok _)) as (c2 & -> & H2).
  cbn [bind]. destruct (SHA256_Final_internal_correct hw junk _ _ H2) as (c3 & -> & _). reflexivity.
Qed.

Lemma HMAC_Final_correct hw junk ctx K m : hmac_inv ctx K m ->
  HMAC_SHA256_Final hw junk ctx = Ok (hmac K m, hmac_zero).
Proof.
  intros H. unfold HMAC_SHA256_Final. rewrite (HMAC_Final_internal_correct hw junk ctx K m H). reflexivity.
Qed.

Lemma hmac_junk_init hw junk K : bytes_ok K ->
  exists ctx', HMAC_SHA256_Init hw junk (hmac_junk junk) K = Ok ctx' /\ hmac_inv ctx' K [].
Proof. intros. apply HMAC_Init_correct; auto; apply sha_junk_buf. Qed.

Theorem HMAC_SHA256_Buf_correct hw junk K m : bytes_ok K -> bytes_ok m ->
  HMAC_SHA256_Buf hw junk K m = Ok (hmac K m).
Proof.
  intros HK Hm. unfold HMAC_SHA256_Buf.
  destruct (hmac_junk_init hw junk K HK) as (c & -> & Hc). cbn [bind].
  destruct (HMAC_Update_correct hw junk c K [] m Hc Hm) as (c2 & -> & H2). cbn [bind].
  apply HMAC_Final_internal_correct. exact H2.
Qed.

Fixpoint hmac_updates hw junk (ctx : hmac_ctx) (ds : list bytes) : res hmac_ctx :=
  match ds with
  | [] => Ok ctx
  | d :: t => c <- HMAC_SHA256_Update hw junk ctx d ;; hmac_updates hw junk c t
  end.
Lemma hmac_updates_inv hw junk ds ctx K m : hmac_inv ctx K m -> Forall bytes_ok ds ->
  exists ctx', hmac_updates hw junk ctx ds = Ok ctx' /\ hmac_inv ctx' K (m ++ concat ds).
Proof.
  revert ctx m; induction ds as [|d ds IH]; intros ctx m H Hok.
  - exists ctx. simpl. rewrite app_nil_r. auto.
  - inversion Hok; subst. cbn [hmac_updates].
    destruct (HMAC_Update_correct hw junk ctx K m d) as (c & -> & Hc); auto. cbn [bind].
    destruct (IH c (m ++ d) Hc) as (c' & E & Hc'); auto. exists c'. split; auto.
    cbn [concat]. rewrite app_assoc. exact Hc'.
Qed.

Lemma hmac_length K m : length (hmac K m) = 32%nat.
Proof. apply sha256_length. Qed.
Lemma hmac_ok K m : bytes_ok (hmac K m).
Proof. apply sha256_ok. Qed.

(* ---------------- PBKDF2 ---------------- *)
Lemma pbkdf2_inner_correct hw junk n ph P U T : hmac_inv ph P [] -> bytes_ok U ->
  pbkdf2_inner hw junk n ph U T = Ok (pbkdf2_xor P U T n).
Proof.
  intros Hph. revert U T. induction n as [|n IH]; intros U T HU; auto.
  cbn [pbkdf2_inner pbkdf2_xor].
  destruct (HMAC_Update_correct hw junk ph P [] U Hph HU) as (c & -> & Hc). cbn [bind].
  rewrite (HMAC_Final_internal_correct hw junk c P U Hc). cbn [bind].
  apply IH. apply hmac_ok.
Qed.

Lemma pbkdf2_xor_length P U T n : length T = 32%nat -> length (pbkdf2_xor P U T n) = 32%nat.
Proof.
  revert U T; induction n as [|n IH]; intros U T HT; auto. cbn [pbkdf2_xor].
  apply IH. rewrite xorl_length, hmac_length. lia.
Qed.
Lemma pbkdf2_xor_ok P U T n : bytes_ok T -> bytes_ok (pbkdf2_xor P U T n).
Proof.
  revert U T; induction n as [|n IH]; intros U T HT; auto. cbn [pbkdf2_xor].
  apply IH. apply bytes_ok_xorl; auto. apply hmac_ok.
Qed.
Lemma pbkdf2_T_length P Sa c i : length (pbkdf2_T P Sa c i) = 32%nat.
Proof. unfold pbkdf2_T. apply pbkdf2_xor_length, hmac_length. Qed.
Lemma pbkdf2_T_ok P Sa c i : bytes_ok (pbkdf2_T P Sa c i).
Proof. unfold pbkdf2_T. apply pbkdf2_xor_ok, hmac_ok. Qed.

Definition pbkdf2_blocks P Sa c (k n : nat) : bytes :=
  flat_map (fun i => pbkdf2_T P Sa c (N.of_nat i)) (seq k n).
Lemma pbkdf2_blocks_length P Sa c k n : length (pbkdf2_blocks P Sa c k n) = (32 * n)%nat.
Proof.
  unfold pbkdf2_blocks. revert k; induction n as [|n IH]; intros k; auto.
  cbn [seq flat_map]. rewrite app_length, pbkdf2_T_length, IH. lia.
Qed.
Lemma pbkdf2_blocks_ok P Sa c k n : bytes_ok (pbkdf2_blocks P Sa c k n).
Proof.
  unfold pbkdf2_blocks. revert k; induction n as [|n IH]; intros k; [constructor|].
  cbn [seq flat_map]. apply bytes_ok_app. split; auto. apply pbkdf2_T_ok.
Qed.

Lemma pbkdf2_unfold P Sa c n : pbkdf2 P Sa c n = firstn n (pbkdf2_blocks P Sa c 1 ((n + 31) / 32)).
Proof. reflexivity. Qed.

Lemma pbkdf2_length P Sa c n : length (pbkdf2 P Sa c n) = n.
Proof.
  rewrite pbkdf2_unfold, firstn_length, pbkdf2_blocks_length.
  pose proof (Nat.div_mod (n + 31) 32 ltac:(lia)). pose proof (Nat.mod_upper_bound (n + 31) 32 ltac:(lia)). lia.
Qed.
Lemma pbkdf2_ok P Sa c n : bytes_ok (pbkdf2 P Sa c n).
Proof. rewrite pbkdf2_unfold. apply Forall_firstn, pbkdf2_blocks_ok. Qed.

Lemma blocks_snoc P Sa c k :
  pbkdf2_blocks P Sa c 1 (S k) = pbkdf2_blocks P Sa c 1 k ++ pbkdf2_T P Sa c (N.of_nat (S k)).
Proof.
  unfold pbkdf2_blocks. rewrite seq_S, flat_map_app. cbn [flat_map]. rewrite app_nil_r. reflexivity.
Qed.

(** Loop invariant: after i iterations the first 32*i bytes hold T_1 .. T_i. *)
Lemma pbkdf2_outer_correct hw junk fuel i ph ps P Sa c buf dkLen :
  hmac_inv ph P [] -> hmac_inv ps P Sa ->
  dkLen <= 32 * 0xffffffff -> (N.to_nat dkLen <= length buf)%nat ->
  32 * i < dkLen + 32 -> dkLen < 32 * (i + N.of_nat fuel) + 1 ->
  firstn (Nat.min (32 * N.to_nat i) (N.to_nat dkLen)) buf =
    firstn (N.to_nat dkLen) (pbkdf2_blocks P Sa c 1 (N.to_nat i)) ->
  exists tl, pbkdf2_outer hw junk fuel i ph ps c buf dkLen =
    Ok (pbkdf2 P Sa c (N.to_nat dkLen) ++ tl) /\
    tl = skipn (N.to_nat dkLen) buf.
Proof.
  intros Hph Hps Hdk. revert i buf. induction fuel as [|fuel IH]; intros i buf Hbuf Hi Hfuel HF.
  - exists (skipn (N.to_nat dkLen) buf). split; auto.
    cbn [pbkdf2_outer]. rewrite w64_small by lia.
    destruct (N.ltb_spec (i * 32) dkLen) as [H|H]; [lia|].
    f_equal. rewrite <- (firstn_skipn (N.to_nat dkLen) buf) at 1. f_equal.
    rewrite Nat.min_r in HF by lia. rewrite HF, pbkdf2_unfold.
    replace ((N.to_nat dkLen + 31) / 32)%nat with (N.to_nat i); [reflexivity|].
    apply (Nat.div_unique _ _ _ (N.to_nat dkLen + 31 - 32 * N.to_nat i)%nat); lia.
  - cbn [pbkdf2_outer]. rewrite (w64_small (i * 32)) by lia.
    destruct (N.ltb_spec (i * 32) dkLen) as [H|H].
    + destruct (HMAC_Update_correct hw junk ps P Sa (be32enc (w32 (i + 1))) Hps) as (c1 & -> & H1).
      { rewrite be32enc_spec. apply be_bytes_ok. }
      cbn [bind]. rewrite (HMAC_Final_internal_correct hw junk c1 _ _ H1). cbn [bind].
      rewrite (pbkdf2_inner_correct hw junk _ ph P) by (auto; apply hmac_ok). cbn [bind].
      rewrite w32_small by lia. rewrite be32enc_spec.
      fold (pbkdf2_T P Sa c (i + 1)).
      set (T := pbkdf2_T P Sa c (i + 1)).
      assert (length T = 32%nat) as HT by apply pbkdf2_T_length.
      assert (w64 (2 ^ 64 + dkLen - i * 32) = dkLen - i * 32) as ->.
      { rewrite w64_mod. replace (2 ^ 64 + dkLen - i * 32) with (dkLen - i * 32 + 1 * 2 ^ 64) by lia.
        rewrite N.mod_add by discriminate. apply N.mod_small. lia. }
      set (clen := if 32 <? dkLen - i * 32 then 32 else dkLen - i * 32).
      assert (N.to_nat clen = Nat.min 32 (N.to_nat dkLen - 32 * N.to_nat i)) as Ec.
      { unfold clen. destruct (N.ltb_spec 32 (dkLen - i * 32)); lia. }
      rewrite rd_ok by lia. cbn [bind].
      assert (length (sub T 0 (N.to_nat clen)) = N.to_nat clen) as HtL by (apply sub_length; lia).
      rewrite wr_ok by lia. cbn [bind].
      assert (skipn (N.to_nat dkLen) (upd buf (N.to_nat (i * 32)) (sub T 0 (N.to_nat clen)))
              = skipn (N.to_nat dkLen) buf) as Hsk.
      { unfold upd. rewrite app_assoc, skipn_app.
        rewrite (skipn_all2 (n := N.to_nat dkLen)) by (rewrite app_length, firstn_length; lia).
        rewrite app_nil_l, skipn_skipn. f_equal. rewrite app_length, firstn_length. lia. }
      destruct (IH (w64 (i + 1)) (upd buf (N.to_nat (i * 32)) (sub T 0 (N.to_nat clen)))) as (tl & E & Etl).
      * rewrite upd_length; lia.
      * rewrite w64_small; lia.
      * rewrite w64_small; lia.
      * rewrite w64_small by lia.
        replace (N.to_nat (i + 1)) with (S (N.to_nat i)) by lia.
        rewrite blocks_snoc. replace (N.of_nat (S (N.to_nat i))) with (i + 1) by lia. fold T.
        rewrite firstn_app, pbkdf2_blocks_length.
        rewrite <- HF. rewrite (Nat.min_l (32 * N.to_nat i)) by lia.
        unfold upd. rewrite app_assoc, firstn_app.
        assert (length (firstn (N.to_nat (i * 32)) buf ++ sub T 0 (N.to_nat clen)) =
          Nat.min (32 * S (N.to_nat i)) (N.to_nat dkLen)) as HL by (rewrite app_length, firstn_length; lia).
        rewrite HL, Nat.sub_diag, firstn_O, app_nil_r.
        rewrite firstn_all2 by lia.
        f_equal; [f_equal; lia|].
        unfold sub. rewrite skipn_O, Ec.
        destruct (Nat.min_spec 32 (N.to_nat dkLen - 32 * N.to_nat i)) as [[Hm ->]|[Hm ->]]; auto.
        rewrite !firstn_all2; auto; lia.
      * rewrite Etl, Hsk in E. exists (skipn (N.to_nat dkLen) buf). auto.
    + exists (skipn (N.to_nat dkLen) buf). split; auto.
      f_equal. rewrite <- (firstn_skipn (N.to_nat dkLen) buf) at 1. f_equal.
      rewrite Nat.min_r in HF by lia. rewrite HF, pbkdf2_unfold.
      replace ((N.to_nat dkLen + 31) / 32)%nat with (N.to_nat i); [reflexivity|].
      apply (Nat.div_unique _ _ _ (N.to_nat dkLen + 31 - 32 * N.to_nat i)%nat); lia.
Qed.

Theorem PBKDF2_SHA256_correct hw junk P Sa c buf dkLen :
  bytes_ok P -> bytes_ok Sa -> dkLen <= 32 * 0xffffffff -> (N.to_nat dkLen <= length buf)%nat ->
  PBKDF2_SHA256 hw junk P Sa c buf dkLen =
    Ok (pbkdf2 P Sa c (N.to_nat dkLen) ++ skipn (N.to_nat dkLen) buf).
Proof.
  intros HP HS Hdk Hb. unfold PBKDF2_SHA256.
  destruct (N.leb_spec dkLen (32 * 0xffffffff)); [|lia]. cbn [assert_ bind].
  destruct (hmac_junk_init hw junk P HP) as (c1 & -> & H1). cbn [bind].
  destruct (HMAC_Update_correct hw junk c1 P [] Sa H1 HS) as (c2 & -> & H2). cbn [bind].
  destruct (pbkdf2_outer_correct hw junk (S (N.to_nat (dkLen / 32))) 0 c1 c2 P Sa c buf dkLen H1 H2 Hdk Hb)
    as (tl & -> & ->); auto.
  - lia.
  - pose proof (N.div_mod' dkLen 32). pose proof (N.mod_lt dkLen 32 ltac:(discriminate)). lia.
  - simpl. rewrite firstn_nil. reflexivity.
Qed.

Theorem PBKDF2_SHA256_too_long hw junk P Sa c buf dkLen :
  32 * 0xffffffff < dkLen -> PBKDF2_SHA256 hw junk P Sa c buf dkLen = Abort.
Proof.
  intros H. unfold PBKDF2_SHA256.
  destruct (N.leb_spec dkLen (32 * 0xffffffff)); [lia|]. reflexivity.
Qed.
