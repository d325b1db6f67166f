(** crypto_aesctr_stream on memory with input and output anywhere, overlapping or
    not: what is written is explained byte by byte. *)
From Verif Require Import Base SpecBytes SpecAES M_endian P_endian M_aes_hw M_aesctr P_aes P_aesctr P_scrypt_ref M_scryptenc P_scryptenc M_aesctr_mem P_aesctr_mem P_aesctr_ovl.

(** The key stream [ks] applied piece by piece from [i] to [o]: each piece is
    read, combined and written before the next one is read. *)
Inductive chunks : nat -> nat -> bytes -> bytes -> bytes -> Prop :=
| ch_nil i o m : chunks i o m [] m
| ch_cons i o m k ks m' : (i + length k <= length m)%nat -> (o + length k <= length m)%nat ->
    chunks (i + length k) (o + length k) (upd m o (xorl (sub m i (length k)) k)) ks m' -> chunks i o m (k ++ ks) m'.
Lemma chunks_one i o m k : (i + length k <= length m)%nat -> (o + length k <= length m)%nat ->
  chunks i o m k (upd m o (xorl (sub m i (length k)) k)).
Proof. intros H1 H2. pose proof (ch_cons i o m k [] _ H1 H2 (ch_nil _ _ _)) as H. rewrite app_nil_r in H. exact H. Qed.
Lemma chunks_trans i o m k1 m1 : chunks i o m k1 m1 -> forall k2 m2,
  chunks (i + length k1) (o + length k1) m1 k2 m2 -> chunks i o m (k1 ++ k2) m2.
Proof.
  induction 1 as [i o m|i o m k ks m' H1 H2 H IH]; intros k2 m2 E.
  - cbn [length app] in *. rewrite !Nat.add_0_r in E. exact E.
  - rewrite <- app_assoc. apply ch_cons; auto. apply IH. rewrite app_length in E. rewrite <- !Nat.add_assoc. exact E.
Qed.

Lemma xorl_via n : forall a k, length a = n -> xorl a (xorl (repeat 0 n) k) = xorl a k.
Proof.
  induction n as [|n IH]; intros [|x a] k H; cbn [length] in H; try discriminate; [reflexivity|].
  destruct k as [|y k]; [reflexivity|]. cbn [repeat xorl]. rewrite N.lxor_0_l. f_equal. apply IH. lia.
Qed.
Lemma xorl_zero n : forall k, length k = n -> xorl (repeat 0 n) k = k.
Proof. induction n as [|n IH]; intros [|y k] H; cbn [length] in H; try discriminate; [reflexivity|]. cbn [repeat xorl]. rewrite N.lxor_0_l, IH by lia. reflexivity. Qed.
Definition fits (b : bufs) : Prop := (b_in b + b_len b <= length (b_mem b))%nat /\ (b_out b + b_len b <= length (b_mem b))%nat.
(** The same code on the separate input [inp] gives [out] and leaves [rest]; [ks]
    is the key stream used up. *)
Record went (b : bufs) (inp out rest ks : bytes) (b' : bufs) : Prop := mk_went {
  wn_fits : fits b';
  wn_out' : out = xorl inp ks;
  wn_rest : rest = skipn (length ks) inp;
  wn_left : length rest = b_len b';
  wn_in : b_in b' = (b_in b + length ks)%nat; wn_out : b_out b' = (b_out b + length ks)%nat;
  wn_len : (length ks + b_len b' = b_len b)%nat;
  wn_mem : chunks (b_in b) (b_out b) (b_mem b) ks (b_mem b') }.
Lemma went_nil b inp : fits b -> length inp = b_len b -> went b inp [] inp [] b.
Proof. intros H HL. constructor; cbn [length]; auto with arith. destruct inp; reflexivity. constructor. Qed.
Lemma xorl_cut n : forall a k, length k = n -> xorl (firstn n a) k = xorl a k.
Proof. induction n as [|n IH]; intros [|x a] [|y k] H; cbn [length] in H; try discriminate; try reflexivity. cbn [firstn xorl]. f_equal. apply IH. lia. Qed.
Lemma xorl_split a k1 k2 : (length k1 <= length a)%nat -> xorl a (k1 ++ k2) = xorl a k1 ++ xorl (skipn (length k1) a) k2.
Proof.
  intros H. rewrite <- (firstn_skipn (length k1) a) at 1. rewrite xorl_app by (rewrite firstn_length; lia). rewrite xorl_cut by reflexivity. reflexivity.
Qed.
Lemma went_trans b inp o1 r1 k1 b1 o2 r2 k2 b2 : length inp = b_len b -> went b inp o1 r1 k1 b1 -> went b1 r1 o2 r2 k2 b2 -> went b inp (o1 ++ o2) r2 (k1 ++ k2) b2.
Proof.
  intros HL [A1 A2 A3 A4 A5 A6 A7 A8] [B1 B2 B3 B4 B5 B6 B7 B8]. constructor; rewrite ?app_length; auto; try lia.
  - rewrite A2, B2, A3. symmetry. apply xorl_split. lia.
  - rewrite B3, A3, skipn_skipn. f_equal. lia.
  - apply (chunks_trans _ _ _ _ _ A8). rewrite <- A5, <- A6. exact B8.
Qed.
Lemma chunks_length i o m ks m' : chunks i o m ks m' -> length m' = length m.
Proof. induction 1; [reflexivity|]. rewrite IHchunks. apply upd_length. rewrite xorl_length, sub_length by lia. lia. Qed.
Lemma went_step b inp n k m' : fits b -> length inp = b_len b -> (n <= b_len b)%nat -> length (xorl (repeat 0 n) k) = n ->
  chunks (b_in b) (b_out b) (b_mem b) (xorl (repeat 0 n) k) m' ->
  went b inp (xorl (sub inp 0 n) k) (skipn n inp) (xorl (repeat 0 n) k) (advance n b m').
Proof.
  intros [F1 F2] HI Hn HL HC. pose proof (chunks_length _ _ _ _ _ HC) as LM.
  assert (length (sub inp 0 n) = n) as LI by (apply sub_length; lia).
  rewrite <- (xorl_via n (sub inp 0 n) k LI).
  set (ks := xorl (repeat 0 n) k) in *. clearbody ks.
  unfold advance. constructor; cbn [b_in b_out b_len b_mem]; try lia.
  - unfold fits. cbn [b_in b_out b_len b_mem]. lia.
  - unfold sub. cbn [skipn]. apply xorl_cut. exact HL.
  - rewrite HL. reflexivity.
  - rewrite skipn_length. lia.
  - exact HC.
Qed.
Lemma went_write b inp n k : fits b -> length inp = b_len b -> (n <= b_len b)%nat -> length (xorl (repeat 0 n) k) = n ->
  went b inp (xorl (sub inp 0 n) k) (skipn n inp) (xorl (repeat 0 n) k) (advance n b (upd (b_mem b) (b_out b) (xorl (sub (b_mem b) (b_in b) n) k))).
Proof.
  intros F HI Hn HL. pose proof F as [F1 F2]. apply went_step; auto.
  assert (length (sub (b_mem b) (b_in b) n) = n) as LS by (apply sub_length; lia).
  rewrite <- (xorl_via n (sub (b_mem b) (b_in b) n) k LS).
  pose proof (chunks_one (b_in b) (b_out b) (b_mem b) (xorl (repeat 0 n) k)) as HC. rewrite HL in HC. apply HC; lia.
Qed.
(** The software path works byte by byte. *)
Lemma use_loop_any buf : forall n bm i o m, (bm + n <= length buf)%nat -> (i + n <= length m)%nat -> (o + n <= length m)%nat ->
  exists m', use_loop n 0 buf bm i o m = Ok m' /\ chunks i o m (sub buf bm n) m'.
Proof.
  induction n as [|n IH]; intros bm i o m H1 H2 H3; cbn [use_loop].
  - exists m. split; [reflexivity|]. unfold sub. cbn [firstn]. constructor.
  - rewrite !Nat.add_0_r. rewrite rd_ok, bind_Ok by lia. rewrite rd_ok, bind_Ok by lia.
    assert (length (sub buf bm 1) = 1%nat) as LK by (apply sub_length; lia).
    assert (length (xorl (sub m i 1) (sub buf bm 1)) = 1%nat) as HL by (rewrite xorl_length, !sub_length by lia; reflexivity).
    rewrite wr_ok, bind_Ok by lia. rewrite use_loop_shift.
    destruct (IH (S bm) (S i) (S o) (upd m o (xorl (sub m i 1) (sub buf bm 1)))) as (m' & E & HC); [lia|rewrite upd_length; lia|rewrite upd_length; lia|].
    exists m'. split; [exact E|]. rewrite sub_cons by lia. apply ch_cons; rewrite ?LK; try lia.
    replace (i + 1)%nat with (S i) by lia. replace (o + 1)%nat with (S o) by lia. exact HC.
Qed.

Section Any.
  Context (hw : aes_hw) (hi8 : bytes).
  Lemma use_any st b inp n bm out rest st' : fits b -> length inp = b_len b -> cipherblock_use st inp n bm = Ok (out, rest, st') ->
    exists b' ks, use_mem st b n bm = Ok (b', st') /\ went b inp out rest ks b' /\ length ks = n.
  Proof.
    intros F HI E. pose proof F as [F1 F2]. unfold cipherblock_use in E.
    apply bind_inv in E. destruct E as (a & EA & E). apply rd_Ok_inv in EA. destruct EA as [HA ->].
    apply bind_inv in E. destruct E as (k & EK & E). apply rd_Ok_inv in EK. destruct EK as [HB ->].
    unfold use_mem. assert (n <= b_len b)%nat as HN by lia. destruct (use_loop_any (s_buf st) n bm (b_in b) (b_out b) (b_mem b)) as (m' & EL & HC); [lia|lia|lia|]. rewrite EL, bind_Ok.
    assert (out = xorl (sub inp 0 n) (sub (s_buf st) bm n)) as -> by congruence.
    assert (rest = skipn n inp) as -> by congruence.
    assert (length (xorl (repeat 0 n) (sub (s_buf st) bm n)) = n) as LK by (rewrite xorl_length, repeat_length, sub_length by lia; lia).
    do 2 eexists. split; [f_equal; f_equal; congruence|]. split; [|exact LK]. apply went_step; auto; try lia.
    assert (xorl (repeat 0 n) (sub (s_buf st) bm n) = sub (s_buf st) bm n) as -> by (apply xorl_zero; apply sub_length; lia). exact HC.
  Qed.
  Lemma pre_any st b inp fin out rest st' : fits b -> length inp = b_len b -> pre_wholeblock st inp = Ok (fin, (out, rest, st')) ->
    exists b' ks, pre_mem st b = Ok (fin, (b', st')) /\ went b inp out rest ks b'.
  Proof.
    intros F HI E. unfold pre_wholeblock in E. unfold pre_mem. rewrite HI in E.
    destruct (Nat.eqb (N.to_nat (s_bytectr st mod 16)) 0).
    - assert (fin = false /\ out = [] /\ rest = inp /\ st' = st) as (-> & -> & -> & ->) by (repeat split; congruence).
      exists b, []. split; [reflexivity|apply went_nil; assumption].
    - destruct (Nat.leb (N.to_nat (s_bytectr st mod 16) + b_len b) 16); apply bind_inv in E; destruct E as ([[o r] s] & E1 & E2);
        destruct (use_any _ _ _ _ _ _ _ _ F HI E1) as (b' & ks & -> & HW & _); rewrite bind_Ok; exists b', ks;
        (split; [f_equal; f_equal; [congruence|f_equal; congruence]|]);
        assert (o = out) as <- by congruence; assert (r = rest) as <- by congruence; exact HW.
  Qed.
  Lemma post_any st b inp out st' : fits b -> length inp = b_len b -> post_wholeblock hw st inp = Ok (out, st') ->
    exists b' ks, post_mem hw st b = Ok (b', st') /\ out = xorl inp ks /\ length ks = b_len b /\ chunks (b_in b) (b_out b) (b_mem b) ks (b_mem b').
  Proof.
    intros F HI E. unfold post_wholeblock in E. unfold post_mem. rewrite HI in E.
    destruct (Nat.ltb_spec 0 (b_len b)).
    - apply bind_inv in E. destruct E as (st1 & -> & E). rewrite bind_Ok. apply bind_inv in E. destruct E as ([[o r] s] & E1 & E2).
      destruct (use_any _ _ _ _ _ _ _ _ F HI E1) as (b' & ks & -> & HW & HK). exists b', ks.
      assert (o = out) as <- by congruence. assert (s = st') as -> by congruence. split; [reflexivity|]. split; [apply HW|]. split; [exact HK|apply HW].
    - exists b, []. assert (out = []) as -> by congruence. assert (st' = st) as -> by congruence. split; [reflexivity|]. split; [destruct inp; reflexivity|]. split; [cbn; lia|constructor].
  Qed.
  Lemma sw_any : forall fuel st b inp out rest st', fits b -> length inp = b_len b -> wholeblocks_sw hw fuel st inp = Ok (out, rest, st') ->
    exists b' ks, sw_mem hw fuel st b = Ok (b', st') /\ went b inp out rest ks b'.
  Proof.
    induction fuel as [|f IH]; intros st b inp out rest st' F HI E; cbn [wholeblocks_sw] in E; cbn [sw_mem]; rewrite HI in E;
      destruct (Nat.leb 16 (b_len b)); try discriminate.
    - assert (out = [] /\ rest = inp /\ st' = st) as (-> & -> & ->) by (repeat split; congruence).
      exists b, []. split; [reflexivity|apply went_nil; assumption].
    - apply bind_inv in E. destruct E as (st1 & -> & E). rewrite bind_Ok. apply bind_inv in E. destruct E as ([[o r] s] & E1 & E).
      destruct (use_any _ _ _ _ _ _ _ _ F HI E1) as (b1 & k1 & -> & HW & _). rewrite bind_Ok.
      apply bind_inv in E. destruct E as ([[o2 r2] s2] & E2 & E).
      destruct (IH _ _ _ _ _ _ (wn_fits _ _ _ _ _ _ HW) (wn_left _ _ _ _ _ _ HW) E2) as (b2 & k2 & -> & HW2).
      exists b2, (k1 ++ k2). assert (out = o ++ o2) as -> by congruence. assert (rest = r2) as -> by congruence. assert (st' = s2) as -> by congruence.
      split; [reflexivity|]. eapply went_trans; eassumption.
    - assert (out = [] /\ rest = inp /\ st' = st) as (-> & -> & ->) by (repeat split; congruence).
      exists b, []. split; [reflexivity|apply went_nil; assumption].
  Qed.
  Lemma hw_blocks_any enc combine hk nbe : forall i ctr b inp out rest arr, fits b -> length inp = b_len b -> length out = (16 * i)%nat ->
    hw_blocks enc combine i hk nbe ctr inp = Ok (out, rest, arr) ->
    exists m ks, hw_blocks_mem enc combine i hk nbe ctr (b_mem b) (b_in b) (b_out b) = Ok (m, (b_in b + 16 * i)%nat, (b_out b + 16 * i)%nat, arr) /\
      went b inp out rest ks (mk_bufs m (b_in b + 16 * i) (b_out b + 16 * i) (b_len b - 16 * i)).
  Proof.
    induction i as [|i IH]; intros ctr b inp out rest arr F HI HL E; cbn [hw_blocks] in E; cbn [hw_blocks_mem]; [discriminate|].
    pose proof F as [F1 F2].
    apply bind_inv in E. destruct E as (k & -> & E). rewrite bind_Ok. apply bind_inv in E. destruct E as (k2 & -> & E). rewrite bind_Ok.
    apply bind_inv in E. destruct E as (x & EX & E). unfold vld16 in *. apply rd_Ok_inv in EX. destruct EX as [HX ->].
    rewrite rd_ok, bind_Ok by lia. unfold vxor in *.
    assert (length (sub inp 0 16) = 16%nat) as LI by (apply sub_length; lia).
    assert (length (sub (b_mem b) (b_in b) 16) = 16%nat) as LM by (apply sub_length; lia).
    assert (length (xorl (sub inp 0 16) k2) <= 16)%nat as HV by (rewrite xorl_length; lia).
    assert (length (xorl (sub inp 0 16) k2) = 16%nat -> length (xorl (sub (b_mem b) (b_in b) 16) k2) = 16%nat /\ length (xorl (repeat 0 16) k2) = 16%nat) as HK.
    { rewrite !xorl_length, repeat_length. lia. }
    destruct i as [|i'].
    - assert (out = xorl (sub inp 0 16) k2) as EO by congruence. assert (arr = be64enc ctr) as -> by congruence.
      assert (rest = skipn 16 inp) as -> by congruence. destruct (HK ltac:(rewrite <- EO; lia)) as [HK1 HK2].
      rewrite wr_ok, bind_Ok by lia. do 2 eexists. split; [reflexivity|].
      pose proof (went_write b inp 16 k2 F HI ltac:(lia) HK2) as HM. rewrite <- EO in HM. unfold advance in HM. replace (16 * 1)%nat with 16%nat by lia. exact HM.
    - apply bind_inv in E. destruct E as ([[o2 r2] a2] & E2 & E). assert (out = xorl (sub inp 0 16) k2 ++ o2) as -> by congruence.
      rewrite app_length in HL. pose proof (hw_blocks_bound _ _ _ _ _ _ _ _ _ _ E2) as HB.
      destruct (HK ltac:(lia)) as [HK1 HK2]. rewrite wr_ok, bind_Ok by lia.
      pose proof (went_write b inp 16 k2 F HI ltac:(lia) HK2) as HM.
      assert (length o2 = (16 * S i')%nat) as HL2 by lia.
      destruct (IH _ _ _ _ _ _ (wn_fits _ _ _ _ _ _ HM) (wn_left _ _ _ _ _ _ HM) HL2 E2) as (m & ks & EM & HM2).
      unfold advance in EM, HM2. cbn [b_mem b_in b_out b_len] in EM, HM2. exists m. eexists. split.
      + rewrite EM. assert (arr = a2) as -> by congruence.
        replace (b_in b + 16 + 16 * S i')%nat with (b_in b + 16 * S (S i'))%nat by lia.
        replace (b_out b + 16 + 16 * S i')%nat with (b_out b + 16 * S (S i'))%nat by lia. reflexivity.
      + assert (rest = r2) as -> by congruence. pose proof (went_trans _ _ _ _ _ _ _ _ _ _ HI HM HM2) as HT.
        replace (b_in b + 16 * S (S i'))%nat with (b_in b + 16 + 16 * S i')%nat by lia.
        replace (b_out b + 16 * S (S i'))%nat with (b_out b + 16 + 16 * S i')%nat by lia.
        replace (b_len b - 16 * S (S i'))%nat with (b_len b - 16 - 16 * S i')%nat by lia. exact HT.
  Qed.
  Lemma whole_any st b inp out rest st' : fits b -> length inp = b_len b -> length out = (16 * (b_len b / 16))%nat ->
    wholeblocks_hw hw hi8 st inp = Ok (out, rest, st') ->
    exists b' ks, whole_mem hw hi8 st b = Ok (b', st') /\ went b inp out rest ks b'.
  Proof.
    intros F HI HL E. unfold wholeblocks_hw in E. unfold whole_mem. rewrite HI in E.
    destruct hw; destruct (s_key st) as [|hk]; try discriminate;
      apply bind_inv in E; destruct E as ([[o r] a] & E1 & E); apply bind_inv in E1; destruct E1 as (nb & -> & E1); rewrite bind_Ok;
      apply bind_inv in E; destruct E as (pb & EP & E);
      assert (o = out) as -> by congruence; assert (r = rest) as -> by congruence;
      destruct (hw_blocks_any _ _ _ _ _ _ _ _ _ _ _ F HI HL E1) as (m & ks & -> & HM); rewrite bind_Ok, EP, bind_Ok;
      (do 2 eexists; split; [f_equal; f_equal; congruence|exact HM]).
  Qed.
End Any.

Lemma xorl_inj : forall a k k', length k = length a -> length k' = length a -> xorl a k = xorl a k' -> k = k'.
Proof.
  induction a as [|x a IH]; intros [|y k] [|y' k'] H1 H2 E; cbn [length xorl] in *; try discriminate; [reflexivity|].
  injection E as E1 E2. f_equal; [|apply IH; auto].
  rewrite <- (N.lxor_0_l y), <- (N.lxor_nilpotent x), N.lxor_assoc, E1, <- N.lxor_assoc, N.lxor_nilpotent. apply N.lxor_0_l.
Qed.
Lemma aes_ctr_xorl key nonce : forall inp pos, aes_ctr key nonce pos inp = xorl inp (aes_ctr key nonce pos (repeat 0 (length inp))).
Proof.
  induction inp as [|x inp IH]; intros pos; [reflexivity|]. cbn [length repeat aes_ctr xorl]. rewrite N.lxor_0_l. f_equal. apply IH.
Qed.

Theorem stream_any hw hi key nonce pos st b inp : stream_at hw key nonce pos st -> fits b -> length inp = b_len b -> pos + N.of_nat (b_len b) < 2 ^ 64 ->
  exists m' st', crypto_aesctr_stream_mem hw hi st (b_mem b) (b_in b) (b_out b) (b_len b) = Ok (m', st') /\
    chunks (b_in b) (b_out b) (b_mem b) (aes_ctr key nonce pos (repeat 0 (b_len b))) m' /\
    crypto_aesctr_stream hw hi st inp = Ok (aes_ctr key nonce pos inp, st') /\
    stream_at hw key nonce (pos + N.of_nat (b_len b)) st'.
Proof.
  intros HA F HI HO.
  destruct (stream_ok hw hi key nonce pos st inp HA ltac:(rewrite HI; exact HO)) as (st' & E & HA'). rewrite HI in HA'. pose proof E as E0.
  assert (forall m' ks, aes_ctr key nonce pos inp = xorl inp ks -> length ks = b_len b -> chunks (b_in b) (b_out b) (b_mem b) ks m' ->
    chunks (b_in b) (b_out b) (b_mem b) (aes_ctr key nonce pos (repeat 0 (b_len b))) m') as FIN.
  { intros m' ks EK LK HC. rewrite aes_ctr_xorl in EK. apply xorl_inj in EK; [|rewrite aes_ctr_length, repeat_length; reflexivity|lia]. rewrite HI in EK. rewrite EK. exact HC. }
  unfold crypto_aesctr_stream in E. unfold crypto_aesctr_stream_mem.
  apply bind_inv in E. destruct E as ([fin [[o1 r1] st1]] & E1 & E).
  destruct (pre_ok hw key nonce pos st inp HA ltac:(rewrite HI; exact HO)) as (fin' & inp1 & st1' & n & Hn & Hi1 & E1' & HA1 & HT & HF).
  assert (fin' = fin /\ inp1 = r1 /\ st1' = st1) as (-> & -> & ->) by (repeat split; congruence).
  assert (o1 = aes_ctr key nonce pos (firstn n inp)) as EO1 by congruence.
  assert (mk_bufs (b_mem b) (b_in b) (b_out b) (b_len b) = b) as -> by (destruct b; reflexivity).
  destruct (pre_any st b inp fin o1 r1 st1 F HI E1) as (b1 & k1 & -> & M1). rewrite bind_Ok. destruct fin.
  { specialize (HT eq_refl). subst n. rewrite firstn_all in EO1. assert (st1 = st') as -> by congruence. exists (b_mem b1), st'. split; [reflexivity|].
    assert (length r1 = 0%nat) as LR by (rewrite Hi1, skipn_length; lia). rewrite (wn_left _ _ _ _ _ _ M1) in LR. pose proof (wn_len _ _ _ _ _ _ M1).
    split; [|split; [exact E0|exact HA']]. apply (FIN _ k1); [rewrite <- EO1; apply M1|lia|apply M1]. }
  specialize (HF eq_refl). rewrite HI in E. pose proof (wn_left _ _ _ _ _ _ M1) as HL1. pose proof (wn_fits _ _ _ _ _ _ M1) as F1.
  apply bind_inv in E. destruct E as ([[o2 r2] st2] & E2 & E). rewrite HL1 in E2.
  assert (pos + N.of_nat n + N.of_nat (length r1) < 2 ^ 64) as HO1.
  { rewrite Hi1, skipn_length. lia. }
  assert (exists b2 k2, (if Nat.leb 16 (b_len b) && match hw with AES_SOFTWARE => false | _ => true end
      then if Nat.leb 16 (b_len b1) then whole_mem hw hi st1 b1 else Ok (b1, st1) else sw_mem hw (b_len b1) st1 b1) = Ok (b2, st2) /\ went b1 r1 o2 r2 k2 b2)
    as (b2 & k2 & EB & M2).
  { destruct (Nat.leb 16 (b_len b) && match hw with AES_SOFTWARE => false | _ => true end) eqn:EH.
    - destruct (Nat.leb_spec 16 (b_len b1)) as [Hx|Hx].
      + eapply whole_any; [exact F1|exact HL1| |exact E2].
        assert (hw <> AES_SOFTWARE) as HNS by (intros ->; rewrite andb_false_r in EH; discriminate).
        destruct (hw_whole_ok hw hi key nonce (pos + N.of_nat n) st1 r1 HNS HA1 HF) as (q & st2' & Q1 & Q2 & EQ & _); [lia|exact HO1|].
        rewrite EQ in E2. assert (o2 = aes_ctr key nonce (pos + N.of_nat n) (firstn (16 * q) r1)) as -> by congruence.
        rewrite aes_ctr_length, firstn_length. rewrite HL1 in *.
        assert (b_len b1 / 16 = q)%nat as -> by (symmetry; apply (Nat.div_unique (b_len b1) 16 q (b_len b1 - 16 * q)); lia). lia.
      + exists b1, []. split; [f_equal; f_equal; congruence|]. assert (o2 = []) as -> by congruence. assert (r2 = r1) as -> by congruence.
        apply went_nil; assumption.
    - eapply sw_any; [exact F1|exact HL1|exact E2]. }
  rewrite EB, bind_Ok. pose proof (wn_left _ _ _ _ _ _ M2) as HL2. pose proof (wn_fits _ _ _ _ _ _ M2) as F2.
  apply bind_inv in E. destruct E as ([o3 st3] & E3 & E). destruct (post_any hw st2 b2 r2 o3 st3 F2 HL2 E3) as (b3 & k3 & -> & EO3 & LK3 & M3). rewrite bind_Ok.
  assert (st3 = st') as -> by congruence. exists (b_mem b3), st'. split; [reflexivity|]. split; [|split; [exact E0|exact HA']].
  assert (aes_ctr key nonce pos inp = (o1 ++ o2) ++ o3) as EO by (rewrite <- app_assoc; congruence).
  pose proof (went_trans _ _ _ _ _ _ _ _ _ _ HI M1 M2) as M12.
  apply (FIN _ ((k1 ++ k2) ++ k3)).
  - rewrite EO, (wn_out' _ _ _ _ _ _ M12), EO3, (wn_rest _ _ _ _ _ _ M12). pose proof (wn_len _ _ _ _ _ _ M12). symmetry. apply xorl_split. lia.
  - rewrite app_length, LK3. apply M12.
  - apply (chunks_trans _ _ _ _ _ (wn_mem _ _ _ _ _ _ M12)). rewrite <- (wn_in _ _ _ _ _ _ M12), <- (wn_out _ _ _ _ _ _ M12). exact M3.
Qed.

Lemma nth_error_xorl : forall a k j, nth_error (xorl a k) j = match nth_error a j, nth_error k j with Some x, Some y => Some (N.lxor x y) | _, _ => None end.
Proof.
  induction a as [|x a IH]; intros [|y k] [|j]; cbn [xorl nth_error]; auto.
  destruct (nth_error a j); reflexivity.
Qed.
(** What the pieces leave behind. *)
Lemma chunks_explain i o m ks m' : chunks i o m ks m' ->
  (forall x, (x < o \/ o + length ks <= x)%nat -> nth_error m' x = nth_error m x) /\
  (forall k, (k < length ks)%nat -> exists v, nth_error m' (o + k) = Some (N.lxor v (nth k ks 0)) /\
    (nth_error m (i + k) = Some v \/ (o <= i + k < o + k)%nat /\ nth_error m' (i + k) = Some v)).
Proof.
  induction 1 as [i o m|i o m c ks m' H1 H2 HC [IH1 IH2]].
  - split; [reflexivity|]. cbn [length]. intros; lia.
  - assert (length (xorl (sub m i (length c)) c) = length c) as LX by (rewrite xorl_length, sub_length by lia; lia).
    rewrite app_length. split.
    + intros x Hx. rewrite IH1 by lia. rewrite nth_error_upd by lia. rewrite LX.
      destruct (Nat.ltb_spec x o); [reflexivity|]. destruct (Nat.ltb_spec x (o + length c)); [lia|reflexivity].
    + intros k Hk. destruct (Nat.lt_ge_cases k (length c)) as [Hc|Hc].
      * destruct (nth_error m (i + k)) as [v|] eqn:EV; [|apply nth_error_None in EV; lia]. exists v. split; [|left; reflexivity].
        rewrite IH1 by lia. rewrite nth_error_upd by lia. rewrite LX. destruct (Nat.ltb_spec (o + k) o); [lia|].
        destruct (Nat.ltb_spec (o + k) (o + length c)); [|lia]. replace (o + k - o)%nat with k by lia.
        rewrite nth_error_xorl, nth_error_sub by lia. destruct (Nat.ltb_spec k (length c)); [|lia]. rewrite EV.
        rewrite app_nth1 by lia. rewrite (nth_error_nth' c 0) by lia. reflexivity.
      * destruct (IH2 (k - length c)%nat ltac:(lia)) as (v & EV & HV). exists v.
        replace (o + length c + (k - length c))%nat with (o + k)%nat in EV by lia. replace (i + length c + (k - length c))%nat with (i + k)%nat in HV by lia.
        rewrite app_nth2 by lia. split; [exact EV|]. destruct HV as [HV|[HR HV]]; [|right; split; [lia|exact HV]].
        rewrite nth_error_upd in HV by lia. rewrite LX in HV. destruct (Nat.ltb_spec (i + k) o); [left; exact HV|].
        destruct (Nat.ltb_spec (i + k) (o + length c)); [|left; exact HV]. right. split; [lia|].
        rewrite IH1 by lia. rewrite nth_error_upd by lia. rewrite LX.
        destruct (Nat.ltb_spec (i + k) o); [lia|]. destruct (Nat.ltb_spec (i + k) (o + length c)); [exact HV|lia].
Qed.
(** Somebody's list of the bytes that were read. *)
Lemma collect (Q : nat -> N -> Prop) n : (forall k, (k < n)%nat -> exists v, Q k v) -> exists l, length l = n /\ forall k, (k < n)%nat -> Q k (nth k l 0).
Proof.
  induction n as [|n IH]; intros H; [exists []; split; [reflexivity|lia]|].
  destruct IH as (l & HL & HQ); [intros k Hk; apply H; lia|]. destruct (H n ltac:(lia)) as (v & HV). exists (l ++ [v]). split; [rewrite app_length; cbn [length]; lia|].
  intros k Hk. destruct (Nat.eq_dec k n) as [->|Hne].
  - rewrite app_nth2 by lia. rewrite HL, Nat.sub_diag. exact HV.
  - rewrite app_nth1 by lia. apply HQ. lia.
Qed.
Lemma chunks_ok i o m ks m' : chunks i o m ks m' -> bytes_ok m -> bytes_ok ks -> bytes_ok m'.
Proof.
  induction 1 as [i o m|i o m c ks m' H1 H2 HC IH]; intros HM HK; [exact HM|]. apply bytes_ok_app in HK. destruct HK as [HK1 HK2].
  apply IH; [|exact HK2]. apply upd_bytes; [exact HM|]. apply bytes_ok_xorl; [apply bytes_ok_sub, HM|exact HK1].
Qed.
Lemma bytes_ok_nth m k v : bytes_ok m -> nth_error m k = Some v -> v < 256.
Proof. intros H E. apply nth_error_In in E. unfold bytes_ok in H. rewrite Forall_forall in H. apply H, E. Qed.
Theorem stream_any_read hw hi key nonce pos st b inp : (length key = 16%nat \/ length key = 32%nat) -> bytes_ok key -> bytes_ok (b_mem b) -> stream_at hw key nonce pos st -> fits b -> length inp = b_len b -> pos + N.of_nat (b_len b) < 2 ^ 64 ->
  exists m' st' read, crypto_aesctr_stream_mem hw hi st (b_mem b) (b_in b) (b_out b) (b_len b) = Ok (m', st') /\
    crypto_aesctr_stream hw hi st inp = Ok (aes_ctr key nonce pos inp, st') /\
    length m' = length (b_mem b) /\ length read = b_len b /\ bytes_ok m' /\ bytes_ok read /\
    (forall x, (x < b_out b \/ b_out b + b_len b <= x)%nat -> nth_error m' x = nth_error (b_mem b) x) /\
    sub m' (b_out b) (b_len b) = aes_ctr key nonce pos read /\
    (forall k, (k < b_len b)%nat -> nth_error read k = nth_error (b_mem b) (b_in b + k) \/
       (b_out b <= b_in b + k < b_out b + k)%nat /\ nth_error read k = nth_error m' (b_in b + k)).
Proof.
  intros HK1 HK2 HMO HA F HI HO. destruct (stream_any hw hi key nonce pos st b inp HA F HI HO) as (m' & st' & E & HC & E2 & _).
  assert (bytes_ok m') as HMO'.
  { apply (chunks_ok _ _ _ _ _ HC); [exact HMO|]. apply aes_ctr_ok; [exact HK1|exact HK2|]. apply Forall_forall. intros v Hv. apply repeat_spec in Hv. lia. }
  pose proof (chunks_length _ _ _ _ _ HC) as LM. apply chunks_explain in HC. destruct HC as [H1 H2].
  assert (length (aes_ctr key nonce pos (repeat 0 (b_len b))) = b_len b) as LK by (rewrite aes_ctr_length, repeat_length; reflexivity).
  rewrite LK in H1, H2. destruct (collect _ _ H2) as (read & LR & HR).
  exists m', st', read. split; [exact E|]. split; [exact E2|]. split; [exact LM|]. split; [exact LR|]. split; [exact HMO'|]. split.
  { unfold bytes_ok. apply Forall_forall. intros v Hv. apply (In_nth _ _ 0) in Hv. destruct Hv as (k & Hk & <-). rewrite LR in Hk.
    destruct (HR k Hk) as [_ [HV|[_ HV]]]; [apply (bytes_ok_nth _ _ _ HMO HV)|apply (bytes_ok_nth _ _ _ HMO' HV)]. }
  split; [exact H1|].
  destruct F as [F1 F2]. split.
  - apply list_ext. intros k. rewrite nth_error_sub by lia. rewrite aes_ctr_xorl, nth_error_xorl, LR. destruct (Nat.ltb_spec k (b_len b)) as [Hk|Hk].
    + destruct (HR k Hk) as [-> _]. rewrite (nth_error_nth' read 0) by lia. rewrite (nth_error_nth' _ 0) by lia. reflexivity.
    + assert (nth_error read k = None) as -> by (apply nth_error_None; lia). reflexivity.
  - intros k Hk. rewrite (nth_error_nth' read 0) by lia. destruct (HR k Hk) as [_ [->|[HB ->]]]; [left; reflexivity|right; split; [exact HB|reflexivity]].
Qed.
