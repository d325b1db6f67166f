(** crypto_aesctr_stream on memory when the output runs ahead of the input: what
    it computes depends only on what lies before the output. *)
From Verif Require Import Base SpecBytes SpecAES M_endian P_endian M_aes_hw M_aesctr P_aes P_aesctr P_scrypt_ref M_scryptenc P_scryptenc M_aesctr_mem P_aesctr_mem.

(** Two memories that agree except possibly from [lo] up to [hi]. *)
Definition alike_but (m1 m2 : bytes) (lo hi : nat) : Prop :=
  length m1 = length m2 /\ forall j, (j < lo \/ hi <= j)%nat -> nth_error m1 j = nth_error m2 j.
Lemma alike_sub m1 m2 lo hi i n : alike_but m1 m2 lo hi -> (i + n <= lo)%nat -> (i + n <= length m1)%nat -> sub m1 i n = sub m2 i n.
Proof.
  intros [HL H] H1 H2. apply list_ext. intros j. rewrite !nth_error_sub by lia. destruct (Nat.ltb_spec j n); [|reflexivity]. apply H. lia.
Qed.
Lemma alike_upd m1 m2 lo hi d : alike_but m1 m2 lo hi -> (lo + length d <= length m1)%nat ->
  alike_but (upd m1 lo d) (upd m2 lo d) (lo + length d) hi.
Proof.
  intros [HL H] H1. split; [rewrite !upd_length; lia|]. intros j Hj. rewrite !nth_error_upd by lia.
  destruct (Nat.ltb_spec j lo); [apply H; lia|]. destruct (Nat.ltb_spec j (lo + length d)); [reflexivity|]. apply H. lia.
Qed.
Lemma alike_all m1 m2 lo hi : alike_but m1 m2 lo hi -> (hi <= lo)%nat -> m1 = m2.
Proof. intros [_ H] HL. apply list_ext. intros j. apply H. lia. Qed.

Lemma upd_bytes m o d : bytes_ok m -> bytes_ok d -> bytes_ok (upd m o d).
Proof. intros H1 H2. unfold upd. apply bytes_ok_app; split; [apply bytes_ok_firstn, H1|]. apply bytes_ok_app; split; [exact H2|apply bytes_ok_skipn, H1]. Qed.
Lemma firstn_upd_before {A} (m : list A) k o d : (k <= o)%nat -> (o + length d <= length m)%nat -> firstn k (upd m o d) = firstn k m.
Proof.
  intros H1 H2. unfold upd. rewrite firstn_app, firstn_firstn, firstn_length. replace (Nat.min k o) with k by lia.
  replace (k - Nat.min o (length m))%nat with 0%nat by lia. rewrite firstn_O, app_nil_r. reflexivity.
Qed.
Lemma xorl_ok_swap : forall a a' k, length a = length a' -> bytes_ok a -> bytes_ok a' -> bytes_ok (xorl a k) -> bytes_ok (xorl a' k).
Proof.
  induction a as [|x a IH]; intros [|x' a'] [|y k] HL H1 H2 H3; cbn [xorl length] in *; try lia; try constructor.
  - inversion H1; inversion H2; inversion H3; subst.
    rewrite <- (N.lxor_0_l y), <- (N.lxor_nilpotent x), N.lxor_assoc. change 256 with (2 ^ 8) in *. apply lxor_lt; [assumption|]. apply lxor_lt; assumption.
  - inversion H1; inversion H2; inversion H3; subst. apply IH; auto; lia.
Qed.

(** [fst ln]: the memory at the beginning; up to [snd ln] it has not changed. *)
Record twins (ln : bytes * nat) (b1 b2 : bufs) (inp : bytes) (en hi : nat) : Prop := mk_twins {
  tw_in : b_in b2 = b_in b1;
  tw_out : b_out b2 = b_out b1;
  tw_len : b_len b2 = b_len b1;
  tw_mem : alike_but (b_mem b1) (b_mem b2) (b_out b1) hi;
  tw_gap : (b_in b1 + 16 <= b_out b1)%nat;
  tw_end : (b_out b1 + b_len b1 = en)%nat;
  tw_fit : (en <= length (b_mem b1))%nat;
  tw_lm : length (b_mem b1) = length (fst ln);
  tw_pre : firstn (snd ln) (b_mem b1) = firstn (snd ln) (fst ln);
  tw_start : (snd ln <= b_out b1)%nat;
  tw_ok : bytes_ok (b_mem b1);
  tw_iok : bytes_ok inp;
  tw_inp : length inp = b_len b1 }.
Lemma twins_write ln b1 b2 inp en hi n d : twins ln b1 b2 inp en hi -> (n <= b_len b1)%nat -> length d = n -> bytes_ok d ->
  twins ln (advance n b1 (upd (b_mem b1) (b_out b1) d)) (advance n b2 (upd (b_mem b2) (b_out b2) d)) (skipn n inp) en hi.
Proof.
  intros [T1 T2 T3 T4 T5 T6 T7 T9 TA TB TO TI T8] Hn HD HO. unfold advance. constructor; cbn [b_in b_out b_len b_mem]; try lia.
  - rewrite T2, <- HD. apply alike_upd; [exact T4|lia].
  - rewrite upd_length; lia.
  - rewrite upd_length; lia.
  - rewrite firstn_upd_before by lia. exact TA.
  - apply upd_bytes; assumption.
  - apply bytes_ok_skipn, TI.
  - rewrite skipn_length. lia.
Qed.

Section Pair.
  Context (hw : aes_hw) (hi8 : bytes).
  Lemma use_pair st ln b1 b2 inp en hi n bm out rest st' : twins ln b1 b2 inp en hi -> bytes_ok out ->
    cipherblock_use st inp n bm = Ok (out, rest, st') -> (n <= 16)%nat ->
    exists b1' b2', use_mem st b1 n bm = Ok (b1', st') /\ use_mem st b2 n bm = Ok (b2', st') /\ twins ln b1' b2' rest en hi /\ b_len b1' = (b_len b1 - n)%nat.
  Proof.
    intros T HB0 E Hn. pose proof T as [T1 T2 T3 T4 T5 T6 T7 T9 TA TB TO TI T8]. unfold cipherblock_use in E.
    apply bind_inv in E. destruct E as (a & EA & E). apply rd_Ok_inv in EA. destruct EA as [HA ->].
    apply bind_inv in E. destruct E as (k & EK & E). apply rd_Ok_inv in EK. destruct EK as [HB ->].
    pose proof (proj1 T4) as HL. unfold use_mem. rewrite !use_loop_ok by lia. rewrite !bind_Ok.
    rewrite T1. rewrite <- (alike_sub _ _ _ _ (b_in b1) n T4) by lia.
    assert (rest = skipn n inp) as -> by congruence.
    do 2 eexists. split; [f_equal; f_equal; congruence|]. split; [f_equal; f_equal; congruence|]. split; [|reflexivity].
    assert (out = xorl (sub inp 0 n) (sub (s_buf st) bm n)) as -> by congruence.
    apply twins_write; [exact T|lia|rewrite xorl_length, !sub_length by lia; lia|].
    eapply xorl_ok_swap; [| | |exact HB0]; [rewrite !sub_length by lia; reflexivity|apply bytes_ok_sub, TI|apply bytes_ok_sub, TO].
  Qed.
  Lemma pre_pair st ln b1 b2 inp en hi fin out rest st' : twins ln b1 b2 inp en hi -> bytes_ok out -> pre_wholeblock st inp = Ok (fin, (out, rest, st')) ->
    exists b1' b2', pre_mem st b1 = Ok (fin, (b1', st')) /\ pre_mem st b2 = Ok (fin, (b2', st')) /\ twins ln b1' b2' rest en hi /\
      (fin = true -> b_len b1' = 0%nat).
  Proof.
    intros T HB0 E. unfold pre_wholeblock in E. unfold pre_mem. rewrite (tw_len _ _ _ _ _ _ T). rewrite (tw_inp _ _ _ _ _ _ T) in E.
    destruct (Nat.eqb (N.to_nat (s_bytectr st mod 16)) 0).
    - assert (fin = false /\ out = [] /\ rest = inp /\ st' = st) as (-> & -> & -> & ->) by (repeat split; congruence).
      exists b1, b2. split; [reflexivity|]. split; [reflexivity|]. split; [exact T|discriminate].
    - destruct (Nat.leb_spec (N.to_nat (s_bytectr st mod 16) + b_len b1) 16); apply bind_inv in E; destruct E as ([[o r] s] & E1 & E2);
        assert (o = out) as -> by congruence; (destruct (use_pair _ _ _ _ _ _ _ _ _ _ _ _ T HB0 E1 ltac:(lia)) as (b1' & b2' & -> & -> & HT & HLN));
        rewrite !bind_Ok; exists b1', b2';
        (split; [f_equal; f_equal; [congruence|f_equal; congruence]|]); (split; [f_equal; f_equal; [congruence|f_equal; congruence]|]);
        assert (r = rest) as <- by congruence; (split; [exact HT|]).
      + intros _. lia.
      + intros ->. congruence.
  Qed.
  Lemma post_pair st ln b1 b2 inp en hi out st' : twins ln b1 b2 inp en hi -> bytes_ok out -> (b_len b1 <= 16)%nat -> post_wholeblock hw st inp = Ok (out, st') ->
    exists b1' b2', post_mem hw st b1 = Ok (b1', st') /\ post_mem hw st b2 = Ok (b2', st') /\ alike_but (b_mem b1') (b_mem b2') en hi /\ length (b_mem b1') = length (fst ln) /\ bytes_ok (b_mem b1') /\ firstn (snd ln) (b_mem b1') = firstn (snd ln) (fst ln).
  Proof.
    intros T HB0 Hn E. unfold post_wholeblock in E. unfold post_mem. rewrite (tw_len _ _ _ _ _ _ T). rewrite (tw_inp _ _ _ _ _ _ T) in E.
    destruct (Nat.ltb_spec 0 (b_len b1)) as [H0|H0].
    - apply bind_inv in E. destruct E as (st1 & -> & E). rewrite !bind_Ok. apply bind_inv in E. destruct E as ([[o r] s] & E1 & E2).
      assert (o = out) as -> by congruence.
      destruct (use_pair _ _ _ _ _ _ _ _ _ _ _ _ T HB0 E1 Hn) as (b1' & b2' & -> & -> & HT & HLN). exists b1', b2'.
      assert (s = st') as -> by congruence. split; [reflexivity|]. split; [reflexivity|].
      pose proof (tw_end _ _ _ _ _ _ HT). replace en with (b_out b1') by lia. split; [|split; [|split]]; apply HT.
    - exists b1, b2. assert (st' = st) as -> by congruence. split; [reflexivity|]. split; [reflexivity|].
      pose proof (tw_end _ _ _ _ _ _ T). replace en with (b_out b1) by lia. split; [|split; [|split]]; apply T.
  Qed.
  Lemma sw_pair ln : forall fuel st b1 b2 inp en hi out rest st', twins ln b1 b2 inp en hi -> bytes_ok out -> wholeblocks_sw hw fuel st inp = Ok (out, rest, st') ->
    exists b1' b2', sw_mem hw fuel st b1 = Ok (b1', st') /\ sw_mem hw fuel st b2 = Ok (b2', st') /\ twins ln b1' b2' rest en hi /\ (b_len b1' <= 16)%nat.
  Proof.
    induction fuel as [|f IH]; intros st b1 b2 inp en hi out rest st' T HB0 E; cbn [wholeblocks_sw] in E; cbn [sw_mem];
      rewrite (tw_len _ _ _ _ _ _ T); rewrite (tw_inp _ _ _ _ _ _ T) in E;
      destruct (Nat.leb_spec 16 (b_len b1)) as [EL|EL]; try discriminate.
    - assert (out = [] /\ rest = inp /\ st' = st) as (-> & -> & ->) by (repeat split; congruence).
      exists b1, b2. split; [reflexivity|]. split; [reflexivity|]. split; [exact T|lia].
    - apply bind_inv in E. destruct E as (st1 & -> & E). rewrite !bind_Ok. apply bind_inv in E. destruct E as ([[o r] s] & E1 & E).
      apply bind_inv in E. destruct E as ([[o2 r2] s2] & E2 & E). assert (out = o ++ o2) as -> by congruence. apply bytes_ok_app in HB0. destruct HB0 as [HB1 HB2].
      destruct (use_pair _ _ _ _ _ _ _ _ _ _ _ _ T HB1 E1 (le_n 16)) as (b1' & b2' & -> & -> & HT & _). rewrite !bind_Ok.
      destruct (IH _ _ _ _ _ _ _ _ _ HT HB2 E2) as (c1 & c2 & -> & -> & HT2 & HL2).
      exists c1, c2. assert (rest = r2) as -> by congruence. assert (st' = s2) as -> by congruence. auto.
    - assert (out = [] /\ rest = inp /\ st' = st) as (-> & -> & ->) by (repeat split; congruence).
      exists b1, b2. split; [reflexivity|]. split; [reflexivity|]. split; [exact T|lia].
  Qed.
  Lemma hw_blocks_pair ln enc combine hk nbe : forall i ctr b1 b2 inp en hi out rest arr, twins ln b1 b2 inp en hi -> bytes_ok out -> length out = (16 * i)%nat ->
    hw_blocks enc combine i hk nbe ctr inp = Ok (out, rest, arr) ->
    exists m1 m2, hw_blocks_mem enc combine i hk nbe ctr (b_mem b1) (b_in b1) (b_out b1) = Ok (m1, (b_in b1 + 16 * i)%nat, (b_out b1 + 16 * i)%nat, arr) /\
      hw_blocks_mem enc combine i hk nbe ctr (b_mem b2) (b_in b2) (b_out b2) = Ok (m2, (b_in b2 + 16 * i)%nat, (b_out b2 + 16 * i)%nat, arr) /\
      twins ln (mk_bufs m1 (b_in b1 + 16 * i) (b_out b1 + 16 * i) (b_len b1 - 16 * i)) (mk_bufs m2 (b_in b2 + 16 * i) (b_out b2 + 16 * i) (b_len b2 - 16 * i)) rest en hi.
  Proof.
    induction i as [|i IH]; intros ctr b1 b2 inp en hi out rest arr T HB0 HL E; cbn [hw_blocks] in E; cbn [hw_blocks_mem]; [discriminate|].
    pose proof T as [T1 T2 T3 T4 T5 T6 T7 T9 TA TB TO TI T8]. pose proof (proj1 T4) as HLM.
    apply bind_inv in E. destruct E as (k & -> & E). rewrite !bind_Ok. apply bind_inv in E. destruct E as (k2 & -> & E). rewrite !bind_Ok.
    apply bind_inv in E. destruct E as (x & EX & E). unfold vld16 in *. apply rd_Ok_inv in EX. destruct EX as [HX ->].
    rewrite (rd_ok (b_mem b1)), bind_Ok by lia. rewrite (rd_ok (b_mem b2)), bind_Ok by lia. rewrite T1, T2.
    rewrite <- (alike_sub _ _ _ _ (b_in b1) 16 T4) by lia.
    assert (length (vxor (sub inp 0 16) k2) = 16%nat -> length (vxor (sub (b_mem b1) (b_in b1) 16) k2) = 16%nat) as HK.
    { unfold vxor. rewrite !xorl_length, !sub_length by lia. lia. }
    assert (bytes_ok (vxor (sub inp 0 16) k2) -> bytes_ok (vxor (sub (b_mem b1) (b_in b1) 16) k2)) as HKO.
    { apply xorl_ok_swap; [rewrite !sub_length by lia; reflexivity|apply bytes_ok_sub, TI|apply bytes_ok_sub, TO]. }
    assert (length (vxor (sub inp 0 16) k2) <= 16)%nat as HV by (unfold vxor; rewrite xorl_length, sub_length; lia).
    destruct i as [|i'].
    - assert (out = vxor (sub inp 0 16) k2) as -> by congruence. assert (arr = be64enc ctr) as -> by congruence.
      specialize (HK ltac:(lia)). specialize (HKO HB0). set (o1 := vxor (sub (b_mem b1) (b_in b1) 16) k2) in *.
      rewrite !wr_ok, !bind_Ok by lia. do 2 eexists. split; [reflexivity|]. split; [reflexivity|].
      assert (rest = skipn 16 inp) as -> by congruence. pose proof (twins_write _ _ _ _ _ _ 16 o1 T ltac:(lia) HK HKO) as HM.
      unfold advance in HM. replace (16 * 1)%nat with 16%nat by lia. rewrite T1, T2 in HM. exact HM.
    - apply bind_inv in E. destruct E as ([[o2 r2] a2] & E2 & E). assert (out = vxor (sub inp 0 16) k2 ++ o2) as -> by congruence.
      rewrite app_length in HL. apply bytes_ok_app in HB0. destruct HB0 as [HB1 HB2]. specialize (HKO HB1). pose proof (hw_blocks_bound _ _ _ _ _ _ _ _ _ _ E2) as HB.
      specialize (HK ltac:(lia)). set (o1 := vxor (sub (b_mem b1) (b_in b1) 16) k2) in *. rewrite !wr_ok, !bind_Ok by lia.
      pose proof (twins_write _ _ _ _ _ _ 16 o1 T ltac:(lia) HK HKO) as HM. assert (length o2 = (16 * S i')%nat) as HL2 by lia.
      assert (rest = r2) as -> by congruence. assert (arr = a2) as -> by congruence.
      destruct (IH _ _ _ _ _ _ _ _ _ HM HB2 HL2 E2) as (m1 & m2 & EM1 & EM2 & HM2).
      unfold advance in EM1, EM2, HM2. cbn [b_mem b_in b_out b_len] in EM1, EM2, HM2. rewrite T1, T2 in EM2, HM2.
      exists m1, m2. 
      replace (b_in b1 + 16 * S (S i'))%nat with (b_in b1 + 16 + 16 * S i')%nat by lia.
      replace (b_out b1 + 16 * S (S i'))%nat with (b_out b1 + 16 + 16 * S i')%nat by lia.
      replace (b_len b1 - 16 * S (S i'))%nat with (b_len b1 - 16 - 16 * S i')%nat by lia.
      replace (b_len b2 - 16 * S (S i'))%nat with (b_len b2 - 16 - 16 * S i')%nat by lia. auto.
  Qed.
  Lemma whole_pair ln st b1 b2 inp en hi out rest st' : twins ln b1 b2 inp en hi -> bytes_ok out -> length out = (16 * (b_len b1 / 16))%nat ->
    wholeblocks_hw hw hi8 st inp = Ok (out, rest, st') ->
    exists b1' b2', whole_mem hw hi8 st b1 = Ok (b1', st') /\ whole_mem hw hi8 st b2 = Ok (b2', st') /\ twins ln b1' b2' rest en hi /\ (b_len b1' <= 16)%nat.
  Proof.
    intros T HB0 HL E. unfold wholeblocks_hw in E. unfold whole_mem. rewrite (tw_len _ _ _ _ _ _ T). rewrite (tw_inp _ _ _ _ _ _ T) in E.
    assert (b_len b1 - 16 * (b_len b1 / 16) <= 16)%nat as HR.
    { pose proof (Nat.div_mod (b_len b1) 16 ltac:(lia)). pose proof (Nat.mod_upper_bound (b_len b1) 16 ltac:(lia)). lia. }
    destruct hw; destruct (s_key st) as [|hk]; try discriminate;
      apply bind_inv in E; destruct E as ([[o r] a] & E1 & E); apply bind_inv in E1; destruct E1 as (nb & -> & E1); rewrite !bind_Ok;
      apply bind_inv in E; destruct E as (pb & EP & E);
      assert (o = out) as -> by congruence; assert (r = rest) as -> by congruence;
      destruct (hw_blocks_pair _ _ _ _ _ _ _ _ _ _ _ _ _ _ _ T HB0 HL E1) as (m1 & m2 & -> & -> & HM); rewrite !bind_Ok, EP, !bind_Ok;
      rewrite (tw_len _ _ _ _ _ _ T) in HM;
      (do 2 eexists; split; [f_equal; f_equal; congruence|]; split; [f_equal; f_equal; congruence|]; split; [exact HM|exact HR]).
  Qed.
End Pair.

Theorem stream_pair hw hi8 key nonce pos st inp m1 m2 i o n hi : length inp = n -> stream_at hw key nonce pos st -> alike_but m1 m2 o hi ->
  (i + 16 <= o)%nat -> (o + n <= length m1)%nat -> pos + N.of_nat n < 2 ^ 64 -> bytes_ok m1 -> bytes_ok inp -> bytes_ok (aes_ctr key nonce pos inp) ->
  exists out m1' m2' st', crypto_aesctr_stream hw hi8 st inp = Ok (out, st') /\ crypto_aesctr_stream_mem hw hi8 st m1 i o n = Ok (m1', st') /\ crypto_aesctr_stream_mem hw hi8 st m2 i o n = Ok (m2', st') /\
    alike_but m1' m2' (o + n) hi /\ length m1' = length m1 /\ bytes_ok m1' /\ firstn o m1' = firstn o m1 /\ stream_at hw key nonce (pos + N.of_nat n) st'.
Proof.
  intros HI HA HM HG HF HO HB1 HB2 HB0. set (ln := (m1, o)).
  destruct (stream_ok hw hi8 key nonce pos st inp HA ltac:(rewrite HI; exact HO)) as (st' & E & HA'). rewrite HI in HA'. exists (aes_ctr key nonce pos inp). pose proof E as E0.
  assert (twins ln (mk_bufs m1 i o n) (mk_bufs m2 i o n) inp (o + n) hi) as T by (constructor; cbn [b_mem b_in b_out b_len]; auto).
  unfold crypto_aesctr_stream in E. unfold crypto_aesctr_stream_mem.
  apply bind_inv in E. destruct E as ([fin [[o1 r1] st1]] & E1 & E).
  destruct (pre_ok hw key nonce pos st inp HA ltac:(rewrite HI; exact HO)) as (fin' & inp1 & st1' & k & Hk & Hi1 & E1' & HA1 & HT & HF1).
  assert (fin' = fin /\ inp1 = r1 /\ st1' = st1) as (-> & -> & ->) by (repeat split; congruence).
  assert (bytes_ok o1) as HO1b.
  { destruct fin; [assert (o1 = aes_ctr key nonce pos inp) as -> by congruence; exact HB0|].
    apply bind_inv in E. destruct E as ([[oa ra] sa] & _ & E). apply bind_inv in E. destruct E as ([ob sb] & _ & E).
    assert (aes_ctr key nonce pos inp = o1 ++ oa ++ ob) as EQ by congruence. rewrite EQ in HB0. apply bytes_ok_app in HB0. apply HB0. }
  destruct (pre_pair st _ _ _ _ _ _ _ _ _ _ T HO1b E1) as (b1 & b2 & -> & -> & T1 & HZ). rewrite !bind_Ok. destruct fin.
  { assert (st1 = st') as -> by congruence. do 2 eexists. exists st'. split; [exact E0|]. split; [reflexivity|]. split; [reflexivity|]. pose proof (tw_end _ _ _ _ _ _ T1). specialize (HZ eq_refl). replace (o + n)%nat with (b_out b1) by lia.
    split; [apply T1|]. split; [apply T1|]. split; [apply T1|]. split; [apply T1|exact HA']. }
  specialize (HF1 eq_refl). rewrite HI in E. rewrite (tw_len _ _ _ _ _ _ T1). pose proof (tw_inp _ _ _ _ _ _ T1) as HL1.
  apply bind_inv in E. destruct E as ([[o2 r2] st2] & E2 & E). rewrite HL1 in E2.
  apply bind_inv in E. destruct E as ([o3 st3] & E3 & E).
  assert (bytes_ok o2 /\ bytes_ok o3) as [HO2b HO3b].
  { assert (aes_ctr key nonce pos inp = o1 ++ o2 ++ o3) as EQ by congruence. rewrite EQ in HB0. apply bytes_ok_app in HB0. destruct HB0 as [_ HB0]. apply bytes_ok_app in HB0. exact HB0. }
  assert (pos + N.of_nat k + N.of_nat (b_len b1) < 2 ^ 64) as HO1.
  { rewrite <- HL1, Hi1, skipn_length. lia. }
  assert (exists c1 c2,
    (if Nat.leb 16 n && match hw with AES_SOFTWARE => false | _ => true end
      then if Nat.leb 16 (b_len b1) then whole_mem hw hi8 st1 b1 else Ok (b1, st1) else sw_mem hw (b_len b1) st1 b1) = Ok (c1, st2) /\
    (if Nat.leb 16 n && match hw with AES_SOFTWARE => false | _ => true end
      then if Nat.leb 16 (b_len b1) then whole_mem hw hi8 st1 b2 else Ok (b2, st1) else sw_mem hw (b_len b1) st1 b2) = Ok (c2, st2) /\
    twins ln c1 c2 r2 (o + n) hi /\ (b_len c1 <= 16)%nat) as (c1 & c2 & EB1 & EB2 & T2 & HL2).
  { destruct (Nat.leb 16 n && match hw with AES_SOFTWARE => false | _ => true end) eqn:EH.
    - destruct (Nat.leb_spec 16 (b_len b1)) as [Hx|Hx].
      + eapply whole_pair; [exact T1|exact HO2b| |exact E2].
        assert (hw <> AES_SOFTWARE) as HNS by (intros ->; rewrite andb_false_r in EH; discriminate).
        destruct (hw_whole_ok hw hi8 key nonce (pos + N.of_nat k) st1 r1 HNS HA1 HF1) as (q & st2' & Q1 & Q2 & EQ & _); [lia|rewrite HL1; exact HO1|].
        rewrite EQ in E2. assert (o2 = aes_ctr key nonce (pos + N.of_nat k) (firstn (16 * q) r1)) as -> by congruence.
        rewrite aes_ctr_length, firstn_length. rewrite HL1 in *.
        assert (b_len b1 / 16 = q)%nat as -> by (symmetry; apply (Nat.div_unique (b_len b1) 16 q (b_len b1 - 16 * q)); lia). lia.
      + exists b1, b2. split; [f_equal; f_equal; congruence|]. split; [f_equal; f_equal; congruence|]. assert (r2 = r1) as -> by congruence. split; [exact T1|lia].
    - eapply sw_pair; [exact T1|exact HO2b|exact E2]. }
  rewrite EB1, EB2, !bind_Ok.
  destruct (post_pair hw st2 _ _ _ _ _ _ o3 st3 T2 HO3b HL2 E3) as (d1 & d2 & -> & -> & HM3 & HM4 & HM5 & HM6). rewrite !bind_Ok.
  assert (st3 = st') as -> by congruence. do 2 eexists. exists st'. split; [exact E0|]. split; [reflexivity|]. split; [reflexivity|]. auto 10.
Qed.
