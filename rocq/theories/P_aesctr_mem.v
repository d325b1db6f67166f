(** crypto_aesctr_stream on overlapping buffers. *)
From Verif Require Import Base SpecBytes SpecAES M_endian P_endian M_aes_hw M_aesctr P_aes P_aesctr P_scrypt_ref M_aesctr_mem.

Lemma bind_inv {A B} (x : res A) (f : A -> res B) r : bind x f = Ok r -> exists y, x = Ok y /\ f y = Ok r.
Proof. destruct x as [y| |]; cbn [bind]; try discriminate. eauto. Qed.
(** ** Arrays *)
Lemma nth_error_upd {A} (m : list A) o d k : (o + length d <= length m)%nat ->
  nth_error (upd m o d) k = if Nat.ltb k o then nth_error m k else if Nat.ltb k (o + length d) then nth_error d (k - o) else nth_error m k.
Proof.
  intros H. unfold upd. assert (length (firstn o m) = o) as HL by (rewrite firstn_length; lia).
  destruct (Nat.ltb_spec k o) as [H1|H1].
  - rewrite nth_error_app1 by lia. rewrite <- (firstn_skipn o m) at 2. rewrite nth_error_app1 by lia. reflexivity.
  - rewrite nth_error_app2, HL by lia. destruct (Nat.ltb_spec k (o + length d)) as [H2|H2].
    + rewrite nth_error_app1 by lia. reflexivity.
    + rewrite nth_error_app2 by lia. rewrite <- (firstn_skipn (o + length d) m) at 2.
      rewrite nth_error_app2 by (rewrite firstn_length; lia). rewrite firstn_length. f_equal. lia.
Qed.
Lemma nth_error_firstn_lt {A} n : forall (l : list A) k, (k < n)%nat -> nth_error (firstn n l) k = nth_error l k.
Proof. induction n as [|n IH]; intros [|x l] [|k] H; cbn; auto; try lia. apply IH. lia. Qed.
Lemma nth_error_skipn_add {A} i : forall (l : list A) k, nth_error (skipn i l) k = nth_error l (i + k).
Proof. induction i as [|i IH]; intros [|x l] k; cbn; auto. destruct k; reflexivity. Qed.
Lemma nth_error_sub {A} (m : list A) i n k : (i + n <= length m)%nat ->
  nth_error (sub m i n) k = if Nat.ltb k n then nth_error m (i + k) else None.
Proof.
  intros H. unfold sub. destruct (Nat.ltb_spec k n) as [H1|H1].
  - rewrite nth_error_firstn_lt by lia. apply nth_error_skipn_add.
  - apply nth_error_None. rewrite firstn_length. lia.
Qed.
Lemma list_ext {A} (a b : list A) : (forall k, nth_error a k = nth_error b k) -> a = b.
Proof.
  revert b. induction a as [|x a IH]; intros [|y b] H; auto.
  - specialize (H 0%nat). discriminate.
  - specialize (H 0%nat). discriminate.
  - pose proof (H 0%nat) as H0. cbn in H0. injection H0 as ->. f_equal. apply IH. intros k. exact (H (S k)).
Qed.
Lemma upd_nil {A} (m : list A) o : upd m o [] = m.
Proof. unfold upd. cbn [length app]. rewrite Nat.add_0_r. apply firstn_skipn. Qed.
Lemma upd_adjacent {A} (m : list A) o a b : (o + length a + length b <= length m)%nat ->
  upd (upd m o a) (o + length a) b = upd m o (a ++ b).
Proof.
  intros H. apply list_ext. intros k.
  rewrite !nth_error_upd by (rewrite ?upd_length, ?app_length; lia). rewrite app_length.
  destruct (Nat.ltb_spec k o) as [H1|H1].
  - destruct (Nat.ltb_spec k (o + length a)); [reflexivity|lia].
  - destruct (Nat.ltb_spec k (o + length a)) as [H2|H2].
    + destruct (Nat.ltb_spec k (o + (length a + length b))); [|lia]. rewrite nth_error_app1 by lia. reflexivity.
    + destruct (Nat.ltb_spec k (o + length a + length b)); destruct (Nat.ltb_spec k (o + (length a + length b))); try lia; [|reflexivity].
      rewrite nth_error_app2 by lia. f_equal. lia.
Qed.
Lemma sub_upd_other {A} (m : list A) o d i n : (o + length d <= length m)%nat -> (i + n <= length m)%nat ->
  (o + length d <= i \/ i + n <= o)%nat -> sub (upd m o d) i n = sub m i n.
Proof.
  intros H1 H2 H3. apply list_ext. intros k. rewrite !nth_error_sub by (rewrite ?upd_length; lia).
  destruct (Nat.ltb_spec k n) as [Hk|Hk]; [|reflexivity]. rewrite nth_error_upd by lia.
  destruct (Nat.ltb_spec (i + k) o); [reflexivity|]. destruct (Nat.ltb_spec (i + k) (o + length d)); [lia|reflexivity].
Qed.
Lemma skipn_sub {A} (m : list A) i n k : (k <= n)%nat -> skipn k (sub m i n) = sub m (i + k) (n - k).
Proof. intros H. unfold sub. rewrite skipn_firstn_comm, skipn_skipn. f_equal. f_equal. lia. Qed.
Lemma sub_sub_0 {A} (m : list A) i n k : (k <= n)%nat -> sub (sub m i n) 0 k = sub m i k.
Proof. intros H. unfold sub. cbn [skipn]. rewrite firstn_firstn. f_equal. lia. Qed.
Lemma xorl_length a : forall b, length (xorl a b) = Nat.min (length a) (length b).
Proof. induction a as [|x a IH]; intros [|y b]; cbn; auto. Qed.

(** ** The byte loop *)
Lemma use_loop_shift buf : forall n j bm i o m, use_loop n (S j) buf bm i o m = use_loop n j buf (S bm) (S i) (S o) m.
Proof.
  induction n as [|n IH]; intros j bm i o m; cbn [use_loop]; [reflexivity|].
  replace (i + S j)%nat with (S i + j)%nat by lia. replace (bm + S j)%nat with (S bm + j)%nat by lia. replace (o + S j)%nat with (S o + j)%nat by lia.
  destruct (rd m (S i + j) 1); cbn [bind]; auto. destruct (rd buf (S bm + j) 1); cbn [bind]; auto. destruct (wr m (S o + j) _); cbn [bind]; auto.
Qed.
Lemma sub_cons {A} (m : list A) i n : (i + S n <= length m)%nat -> sub m i (S n) = sub m i 1 ++ sub m (S i) n.
Proof.
  intros H. apply list_ext. intros k. rewrite nth_error_sub by lia. destruct (Nat.ltb_spec k (S n)).
  - destruct k as [|k].
    + rewrite nth_error_app1 by (rewrite sub_length; lia). rewrite nth_error_sub by lia. reflexivity.
    + rewrite nth_error_app2 by (rewrite sub_length; lia). rewrite sub_length by lia. rewrite nth_error_sub by lia.
      destruct (Nat.ltb_spec (S k - 1) n); [f_equal; lia|lia].
  - symmetry. apply nth_error_None. rewrite app_length, !sub_length; lia.
Qed.
Lemma xorl_app a : forall b c d, length a = length c -> xorl (a ++ b) (c ++ d) = xorl a c ++ xorl b d.
Proof. induction a as [|x a IH]; intros b [|y c] d H; cbn in *; try lia; auto. f_equal. apply IH. lia. Qed.
Lemma use_loop_ok buf : forall n bm i o m, (bm + n <= length buf)%nat -> (i + n <= length m)%nat -> (o + n <= length m)%nat ->
  (o <= i \/ i + n <= o)%nat ->
  use_loop n 0 buf bm i o m = Ok (upd m o (xorl (sub m i n) (sub buf bm n))).
Proof.
  induction n as [|n IH]; intros bm i o m H1 H2 H3 H4; cbn [use_loop].
  - unfold sub. cbn [firstn xorl]. rewrite upd_nil. reflexivity.
  - rewrite !Nat.add_0_r. rewrite rd_ok, bind_Ok by lia. rewrite rd_ok, bind_Ok by lia.
    assert (length (xorl (sub m i 1) (sub buf bm 1)) = 1%nat) as HL by (rewrite xorl_length, !sub_length by lia; reflexivity).
    rewrite wr_ok, bind_Ok by lia. rewrite use_loop_shift.
    rewrite IH by (rewrite ?upd_length by lia; lia).
    rewrite sub_upd_other by lia. replace (S o) with (o + length (xorl (sub m i 1) (sub buf bm 1)))%nat by lia.
    rewrite upd_adjacent by (rewrite !xorl_length, !sub_length by lia; lia).
    rewrite (sub_cons m i n), (sub_cons buf bm n) by lia. rewrite xorl_app by (rewrite !sub_length by lia; reflexivity). reflexivity.
Qed.

(** ** Simulation *)
(** The buffers are usable: inside the memory; overlapping, if at all, with the
    output not ahead of the input (in particular: identical). *)
Definition usable (b : bufs) : Prop :=
  (b_in b + b_len b <= length (b_mem b))%nat /\ (b_out b + b_len b <= length (b_mem b))%nat /\
  (b_out b <= b_in b \/ b_in b + b_len b <= b_out b)%nat.
Definition input (b : bufs) : bytes := sub (b_mem b) (b_in b) (b_len b).
(** [out] was produced, the input [rest] is left *)
Record moved (b : bufs) (out rest : bytes) (b' : bufs) : Prop := mk_moved {
  mv_len : (length out + length rest = b_len b)%nat;
  mv_mem : b_mem b' = upd (b_mem b) (b_out b) out;
  mv_in : b_in b' = (b_in b + length out)%nat; mv_out : b_out b' = (b_out b + length out)%nat;
  mv_left : b_len b' = length rest; mv_rest : input b' = rest }.
Lemma input_length b : usable b -> length (input b) = b_len b.
Proof. intros (H1 & _ & _). unfold input. apply sub_length. exact H1. Qed.
Lemma moved_usable b out rest b' : usable b -> moved b out rest b' -> usable b'.
Proof.
  intros (U1 & U2 & U3) [M1 M2 M3 M4 M5 M6]. unfold usable. rewrite M2, M3, M4, M5, upd_length by lia. lia.
Qed.
Lemma moved_nil b : usable b -> moved b [] (input b) b.
Proof.
  intros U. constructor; cbn [length]; rewrite ?input_length by exact U; auto.
  rewrite upd_nil. reflexivity.
Qed.
Lemma moved_trans b o1 r1 b1 o2 r2 b2 : usable b -> moved b o1 r1 b1 -> moved b1 o2 r2 b2 -> moved b (o1 ++ o2) r2 b2.
Proof.
  intros (U1 & U2 & U3) [M1 M2 M3 M4 M5 M6] [N1 N2 N3 N4 N5 N6]. constructor; rewrite ?app_length; try lia; auto.
  rewrite N2, M2, M4. apply upd_adjacent. lia.
Qed.
Lemma moved_write b n out : usable b -> (n <= b_len b)%nat -> length out = n ->
  moved b out (skipn n (input b)) (advance n b (upd (b_mem b) (b_out b) out)).
Proof.
  intros U Hn HL. pose proof U as (U1 & U2 & U3). unfold advance. constructor; cbn [b_mem b_in b_out b_len]; try lia.
  - rewrite skipn_length, input_length by exact U. lia.
  - reflexivity.
  - rewrite skipn_length, input_length by exact U. reflexivity.
  - unfold input at 1. cbn [b_mem b_in b_len]. rewrite sub_upd_other by lia. unfold input. rewrite skipn_sub by lia. reflexivity.
Qed.

Section Sim.
  Context (hw : aes_hw) (hi : bytes).
  Lemma use_sim st b n bm out rest st' : usable b -> (n <= b_len b)%nat ->
    cipherblock_use st (input b) n bm = Ok (out, rest, st') ->
    exists b', use_mem st b n bm = Ok (b', st') /\ moved b out rest b'.
  Proof.
    intros U Hn E. pose proof U as (U1 & U2 & U3). unfold cipherblock_use in E.
    rewrite rd_ok, bind_Ok in E by (rewrite input_length by exact U; lia).
    destruct (rd (s_buf st) bm n) as [k| |] eqn:EK; cbn [bind] in E; try discriminate.
    apply rd_Ok_inv in EK. destruct EK as [HB ->]. unfold use_mem.
    rewrite use_loop_ok by lia. rewrite bind_Ok. eexists. 
    assert (sub (input b) 0 n = sub (b_mem b) (b_in b) n) as HS by (unfold input; apply sub_sub_0; exact Hn).
    rewrite HS in E. assert (out = xorl (sub (b_mem b) (b_in b) n) (sub (s_buf st) bm n)) as -> by congruence.
    assert (rest = skipn n (input b)) as -> by congruence. split; [f_equal; f_equal; congruence|].
    apply moved_write; auto. rewrite xorl_length, !sub_length by lia. lia.
  Qed.
  Lemma use_len st inp n bm out rest st' : cipherblock_use st inp n bm = Ok (out, rest, st') -> (n <= length inp)%nat.
  Proof. unfold cipherblock_use. unfold rd at 1. destruct (Nat.leb_spec (0 + n) (length inp)); [lia|discriminate]. Qed.
  Lemma pre_sim st b fin out rest st' : usable b -> pre_wholeblock st (input b) = Ok (fin, (out, rest, st')) ->
    exists b', pre_mem st b = Ok (fin, (b', st')) /\ moved b out rest b'.
  Proof.
    intros U E. unfold pre_wholeblock in E. unfold pre_mem. rewrite input_length in E by exact U.
    destruct (Nat.eqb (N.to_nat (s_bytectr st mod 16)) 0).
    - assert (fin = false /\ out = [] /\ rest = input b /\ st' = st) as (-> & -> & -> & ->) by (repeat split; congruence).
      exists b. split; [reflexivity|apply moved_nil, U].
    - destruct (Nat.leb (N.to_nat (s_bytectr st mod 16) + b_len b) 16); apply bind_inv in E; destruct E as ([[o r] s] & E1 & E2);
        pose proof (use_len _ _ _ _ _ _ _ E1) as HL; rewrite input_length in HL by exact U;
        destruct (use_sim _ _ _ _ _ _ _ U HL E1) as (b' & -> & HM); rewrite bind_Ok; exists b';
        (split; [f_equal; f_equal; [congruence|f_equal; congruence]|]);
        assert (o = out) as <- by congruence; assert (r = rest) as <- by congruence; exact HM.
  Qed.
  Lemma post_sim st b out st' : usable b -> post_wholeblock hw st (input b) = Ok (out, st') ->
    exists b', post_mem hw st b = Ok (b', st') /\ b_mem b' = upd (b_mem b) (b_out b) out /\ length out = b_len b.
  Proof.
    intros U E. unfold post_wholeblock in E. unfold post_mem. rewrite input_length in E by exact U.
    destruct (Nat.ltb_spec 0 (b_len b)) as [H0|H0].
    - apply bind_inv in E. destruct E as (st1 & -> & E). rewrite bind_Ok. apply bind_inv in E. destruct E as ([[o r] s] & E1 & E2).
      destruct (use_sim _ _ _ _ _ _ _ U (le_n _) E1) as (b' & -> & HM). exists b'.
      assert (o = out) as -> by congruence. assert (s = st') as -> by congruence. split; [reflexivity|]. split; [apply HM|].
      unfold cipherblock_use in E1. rewrite rd_ok, bind_Ok in E1 by (rewrite input_length by exact U; lia).
      destruct (rd (s_buf st1) 0 (b_len b)) as [k| |] eqn:EK; cbn [bind] in E1; try discriminate.
      apply rd_Ok_inv in EK. destruct EK as [HB ->]. assert (out = xorl (sub (input b) 0 (b_len b)) (sub (s_buf st1) 0 (b_len b))) as -> by congruence.
      rewrite xorl_length, !sub_length; rewrite ?input_length; auto; lia.
    - exists b. assert (out = []) as -> by congruence. assert (st' = st) as -> by congruence. rewrite upd_nil. cbn [length].
      repeat split; auto. lia.
  Qed.
  Lemma sw_sim : forall fuel st b out rest st', usable b -> wholeblocks_sw hw fuel st (input b) = Ok (out, rest, st') ->
    exists b', sw_mem hw fuel st b = Ok (b', st') /\ moved b out rest b'.
  Proof.
    induction fuel as [|f IH]; intros st b out rest st' U E; cbn [wholeblocks_sw] in E; cbn [sw_mem]; rewrite input_length in E by exact U;
      destruct (Nat.leb 16 (b_len b)) eqn:EL; try discriminate.
    - assert (out = [] /\ rest = input b /\ st' = st) as (-> & -> & ->) by (repeat split; congruence).
      exists b. split; [reflexivity|apply moved_nil, U].
    - apply bind_inv in E. destruct E as (st1 & -> & E). rewrite bind_Ok. apply bind_inv in E. destruct E as ([[o r] s] & E1 & E).
      apply Nat.leb_le in EL. destruct (use_sim _ _ _ _ _ _ _ U EL E1) as (b1 & -> & HM). rewrite bind_Ok.
      pose proof (moved_usable _ _ _ _ U HM) as U1. rewrite <- (mv_rest _ _ _ _ HM) in E.
      apply bind_inv in E. destruct E as ([[o2 r2] s2] & E2 & E). destruct (IH _ _ _ _ _ U1 E2) as (b2 & -> & HM2).
      exists b2. assert (out = o ++ o2) as -> by congruence. assert (rest = r2) as -> by congruence. assert (st' = s2) as -> by congruence.
      split; [reflexivity|]. exact (moved_trans _ _ _ _ _ _ _ U HM HM2).
    - assert (out = [] /\ rest = input b /\ st' = st) as (-> & -> & ->) by (repeat split; congruence).
      exists b. split; [reflexivity|apply moved_nil, U].
  Qed.
  Lemma hw_blocks_bound enc combine hk nbe : forall i ctr inp out rest arr, hw_blocks enc combine i hk nbe ctr inp = Ok (out, rest, arr) ->
    (length out <= 16 * i)%nat.
  Proof.
    induction i as [|i IH]; intros ctr inp out rest arr E; cbn [hw_blocks] in E; [discriminate|].
    apply bind_inv in E. destruct E as (k & _ & E). apply bind_inv in E. destruct E as (k2 & _ & E). apply bind_inv in E. destruct E as (x & EX & E).
    unfold vld16 in EX. apply rd_Ok_inv in EX. destruct EX as [HX ->].
    assert (length (vxor (sub inp 0 16) k2) <= 16)%nat as HV by (unfold vxor; rewrite xorl_length, sub_length; lia).
    destruct i as [|i'].
    - assert (out = vxor (sub inp 0 16) k2) as -> by congruence. lia.
    - apply bind_inv in E. destruct E as ([[o2 r2] a2] & E2 & E). assert (out = vxor (sub inp 0 16) k2 ++ o2) as -> by congruence.
      rewrite app_length. specialize (IH _ _ _ _ _ E2). lia.
  Qed.
  Lemma hw_blocks_sim enc combine hk nbe : forall i ctr b out rest arr, usable b -> length out = (16 * i)%nat ->
    hw_blocks enc combine i hk nbe ctr (input b) = Ok (out, rest, arr) ->
    exists m, hw_blocks_mem enc combine i hk nbe ctr (b_mem b) (b_in b) (b_out b) = Ok (m, (b_in b + 16 * i)%nat, (b_out b + 16 * i)%nat, arr) /\
      moved b out rest (mk_bufs m (b_in b + 16 * i) (b_out b + 16 * i) (b_len b - 16 * i)).
  Proof.
    induction i as [|i IH]; intros ctr b out rest arr U HL E; cbn [hw_blocks] in E; cbn [hw_blocks_mem]; [discriminate|].
    pose proof U as (U1 & U2 & U3).
    apply bind_inv in E. destruct E as (k & -> & E). rewrite bind_Ok. apply bind_inv in E. destruct E as (k2 & -> & E). rewrite bind_Ok.
    apply bind_inv in E. destruct E as (x & EX & E). unfold vld16 in *. apply rd_Ok_inv in EX. destruct EX as [HX ->].
    rewrite input_length in HX by exact U. rewrite rd_ok, bind_Ok by lia.
    assert (sub (input b) 0 16 = sub (b_mem b) (b_in b) 16) as HS by (unfold input; apply sub_sub_0; lia). rewrite HS in E.
    set (o1 := vxor (sub (b_mem b) (b_in b) 16) k2) in *.
    assert (length o1 <= 16)%nat as HV by (unfold o1, vxor; rewrite xorl_length, sub_length; lia).
    destruct i as [|i'].
    - assert (out = o1) as -> by congruence. rewrite wr_ok, bind_Ok by lia. assert (arr = be64enc ctr) as -> by congruence. eexists. split; [reflexivity|].
      assert (rest = skipn 16 (input b)) as -> by congruence. pose proof (moved_write b 16 o1 U ltac:(lia) ltac:(lia)) as HM.
      unfold advance in HM. replace (16 * 1)%nat with 16%nat by lia. exact HM.
    - apply bind_inv in E. destruct E as ([[o2 r2] a2] & E2 & E). assert (out = o1 ++ o2) as -> by congruence.
      rewrite app_length in HL. pose proof (hw_blocks_bound _ _ _ _ _ _ _ _ _ _ E2) as HB.
      assert (length o1 = 16%nat) as HL1 by lia. rewrite wr_ok, bind_Ok by lia.
      pose proof (moved_write b 16 o1 U ltac:(lia) HL1) as HM. pose proof (moved_usable _ _ _ _ U HM) as UM.
      rewrite <- (mv_rest _ _ _ _ HM) in E2. assert (length o2 = (16 * S i')%nat) as HL2 by lia. destruct (IH _ _ _ _ _ UM HL2 E2) as (m & EM & HM2).
      unfold advance in EM, HM2. cbn [b_mem b_in b_out b_len] in EM, HM2.
      exists m. split.
      + rewrite EM. assert (arr = a2) as -> by congruence.
        replace (b_in b + 16 + 16 * S i')%nat with (b_in b + 16 * S (S i'))%nat by lia.
        replace (b_out b + 16 + 16 * S i')%nat with (b_out b + 16 * S (S i'))%nat by lia. reflexivity.
      + assert (rest = r2) as -> by congruence. pose proof (moved_trans _ _ _ _ _ _ _ U HM HM2) as HT.
        replace (b_in b + 16 * S (S i'))%nat with (b_in b + 16 + 16 * S i')%nat by lia.
        replace (b_out b + 16 * S (S i'))%nat with (b_out b + 16 + 16 * S i')%nat by lia.
        replace (b_len b - 16 * S (S i'))%nat with (b_len b - 16 - 16 * S i')%nat by lia. exact HT.
  Qed.
  Lemma whole_sim st b out rest st' : usable b -> length out = (16 * (b_len b / 16))%nat ->
    wholeblocks_hw hw hi st (input b) = Ok (out, rest, st') ->
    exists b', whole_mem hw hi st b = Ok (b', st') /\ moved b out rest b'.
  Proof.
    intros U HL E. unfold wholeblocks_hw in E. unfold whole_mem. rewrite input_length in E by exact U.
    destruct hw; destruct (s_key st) as [|hk]; try discriminate;
      apply bind_inv in E; destruct E as ([[o r] a] & E1 & E); apply bind_inv in E1; destruct E1 as (nb & -> & E1); rewrite bind_Ok;
      apply bind_inv in E; destruct E as (pb & EP & E);
      assert (o = out) as -> by congruence; assert (r = rest) as -> by congruence;
      destruct (hw_blocks_sim _ _ _ _ _ _ _ _ _ _ U HL E1) as (m & -> & HM); rewrite bind_Ok, EP, bind_Ok;
      (eexists; split; [f_equal; f_equal; congruence|exact HM]).
  Qed.
End Sim.

Theorem stream_mem_ok hw hi key nonce pos st b : stream_at hw key nonce pos st -> usable b -> pos + N.of_nat (b_len b) < 2 ^ 64 ->
  exists st', crypto_aesctr_stream hw hi st (input b) = Ok (aes_ctr key nonce pos (input b), st') /\
    crypto_aesctr_stream_mem hw hi st (b_mem b) (b_in b) (b_out b) (b_len b) = Ok (upd (b_mem b) (b_out b) (aes_ctr key nonce pos (input b)), st') /\
    stream_at hw key nonce (pos + N.of_nat (b_len b)) st'.
Proof.
  intros HA U HO. pose proof (input_length b U) as HI.
  destruct (stream_ok hw hi key nonce pos st (input b) HA ltac:(rewrite HI; exact HO)) as (st' & E & HA'). rewrite HI in HA'.
  exists st'. split; [exact E|]. split; [|exact HA'].
  unfold crypto_aesctr_stream in E. unfold crypto_aesctr_stream_mem.
  apply bind_inv in E. destruct E as ([fin [[o1 r1] st1]] & E1 & E).
  destruct (pre_ok hw key nonce pos st (input b) HA ltac:(rewrite HI; exact HO)) as (fin' & inp1 & st1' & n & Hn & Hi1 & E1' & HA1 & HT & HF).
  assert (fin' = fin /\ inp1 = r1 /\ st1' = st1) as (-> & -> & ->) by (repeat split; congruence).
  assert (mk_bufs (b_mem b) (b_in b) (b_out b) (b_len b) = b) as -> by (destruct b; reflexivity).
  destruct (pre_sim st b fin o1 r1 st1 U E1) as (b1 & -> & M1). rewrite bind_Ok.
  pose proof (moved_usable _ _ _ _ U M1) as U1. destruct fin.
  { assert (o1 = aes_ctr key nonce pos (input b)) as <- by congruence. assert (st1 = st') as -> by congruence.
    rewrite (mv_mem _ _ _ _ M1). reflexivity. }
  specialize (HF eq_refl). rewrite <- (mv_rest _ _ _ _ M1) in E. rewrite HI in E.
  apply bind_inv in E. destruct E as ([[o2 r2] st2] & E2 & E). rewrite (input_length b1 U1) in E2.
  assert (pos + N.of_nat n + N.of_nat (length (input b1)) < 2 ^ 64) as HO1.
  { rewrite (mv_rest _ _ _ _ M1), Hi1, skipn_length. lia. }
  assert (exists b2, (if Nat.leb 16 (b_len b) && match hw with AES_SOFTWARE => false | _ => true end
      then if Nat.leb 16 (b_len b1) then whole_mem hw hi st1 b1 else Ok (b1, st1) else sw_mem hw (b_len b1) st1 b1) = Ok (b2, st2) /\ moved b1 o2 r2 b2)
    as (b2 & EB & M2).
  { destruct (Nat.leb 16 (b_len b) && match hw with AES_SOFTWARE => false | _ => true end) eqn:EH.
    - destruct (Nat.leb_spec 16 (b_len b1)) as [Hx|Hx].
      + apply whole_sim; [exact U1| |exact E2].
        assert (hw <> AES_SOFTWARE) as HNS by (intros ->; rewrite andb_false_r in EH; discriminate).
        destruct (hw_whole_ok hw hi key nonce (pos + N.of_nat n) st1 (input b1) HNS HA1 HF) as (q & st2' & Q1 & Q2 & EQ & _); [rewrite (input_length b1 U1); lia|exact HO1|].
        rewrite EQ in E2. assert (o2 = aes_ctr key nonce (pos + N.of_nat n) (firstn (16 * q) (input b1))) as -> by congruence.
        rewrite aes_ctr_length, firstn_length. rewrite (input_length b1 U1) in *.
        assert (b_len b1 / 16 = q)%nat as -> by (symmetry; apply (Nat.div_unique (b_len b1) 16 q (b_len b1 - 16 * q)); lia). lia.
      + exists b1. split; [f_equal; f_equal; congruence|]. assert (o2 = []) as -> by congruence. assert (r2 = input b1) as -> by congruence.
        apply moved_nil, U1.
    - apply sw_sim; [exact U1|exact E2]. }
  rewrite EB, bind_Ok. pose proof (moved_usable _ _ _ _ U1 M2) as U2. rewrite <- (mv_rest _ _ _ _ M2) in E.
  apply bind_inv in E. destruct E as ([o3 st3] & E3 & E). destruct (post_sim hw st2 b2 o3 st3 U2 E3) as (b3 & -> & EM3 & HL3). rewrite bind_Ok.
  assert (st3 = st') as -> by congruence. f_equal. f_equal. rewrite EM3, (mv_mem _ _ _ _ M2), (mv_mem _ _ _ _ M1), (mv_out _ _ _ _ M2), (mv_out _ _ _ _ M1).
  assert (aes_ctr key nonce pos (input b) = o1 ++ o2 ++ o3) as -> by congruence.
  destruct U as (UA & UB & UC). destruct M1 as [ML1 _ _ _ ML1' _]. destruct M2 as [ML2 _ _ _ ML2' _].
  rewrite (upd_adjacent _ (b_out b) o1 o2) by lia. replace (b_out b + length o1 + length o2)%nat with (b_out b + length (o1 ++ o2))%nat by (rewrite app_length; lia).
  rewrite upd_adjacent by (rewrite app_length; lia). rewrite <- app_assoc. reflexivity.
Qed.
