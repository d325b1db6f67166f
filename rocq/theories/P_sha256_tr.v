(** The portable block transform computes the FIPS 180-4 compression function. *)
From Verif Require Import Base SpecBytes SpecSHA M_endian P_endian M_sha256_tr.

Lemma Krnd_spec : Krnd = K256.
Proof. vm_compute. reflexivity. Qed.
Lemma initial_state_spec : initial_state = H256.
Proof. vm_compute. reflexivity. Qed.
Lemma primes64_length : length primes64 = 64%nat.
Proof. vm_compute. reflexivity. Qed.
Lemma K256_length : length K256 = 64%nat.
Proof. rewrite <- Krnd_spec. reflexivity. Qed.

Lemma c_Ch_spec x y z : c_Ch x y z = Ch x y z.
Proof. unfold c_Ch, Ch. bitwise. Qed.
Lemma c_Maj_spec x y z : c_Maj x y z = Maj x y z.
Proof. unfold c_Maj, Maj. bitwise. Qed.
Lemma c_S0_spec x : c_S0 x = Sigma0 x. Proof. reflexivity. Qed.
Lemma c_S1_spec x : c_S1 x = Sigma1 x. Proof. reflexivity. Qed.
Lemma c_s0_spec x : c_s0 x = sigma0 x. Proof. reflexivity. Qed.
Lemma c_s1_spec x : c_s1 x = sigma1 x. Proof. reflexivity. Qed.

(** add32 normalisation: sort out associativity and commutativity. *)
Ltac add32_ac :=
  rewrite ?add32_assoc;
  repeat first [ reflexivity
               | match goal with |- add32 ?a _ = add32 ?a _ => f_equal end
               | fail ].
Lemma add32_lcomm a b c : add32 a (add32 b c) = add32 b (add32 a c).
Proof. rewrite <- !add32_assoc, (add32_comm a b). reflexivity. Qed.

(* ---------------- rounds ---------------- *)
(** Reading S in the rotated order used at round i. *)
Definition view (i : nat) (S : list N) : list N :=
  map (fun j => sel S ((64 + j - i) mod 8)) (seq 0 8).

Lemma RNDr_view i ii S W : (i < 16)%nat -> length S = 8%nat ->
  view (i + 1) (RNDr S W i ii) =
  round256 (view i S) (sel Krnd (i + ii)) (sel W (i + ii)).
Proof.
  intros Hi HS.
  do 8 (destruct S as [|? S]; [discriminate|]). destruct S; [|discriminate]. clear HS.
  unfold RNDr.
  generalize (sel Krnd (i + ii)) (sel W (i + ii)). intros k w.
  unfold RND, round256, view. rewrite !c_Ch_spec, !c_Maj_spec.
  change c_S0 with Sigma0. change c_S1 with Sigma1.
  do 16 (destruct i as [|i]; [
    cbn [Nat.sub Nat.add Nat.modulo Nat.divmod snd fst seq map sel nth set_nth];
    rewrite !add32_assoc; rewrite ?(add32_comm k w); rewrite ?(add32_lcomm k w); reflexivity | ]).
  lia.
Qed.

Lemma RNDr_length S W i ii : length (RNDr S W i ii) = length S.
Proof. unfold RNDr, RND. rewrite !set_nth_length. reflexivity. Qed.

Lemma view_0 S : length S = 8%nat -> view 0 S = S.
Proof.
  intros HS. do 8 (destruct S as [|? S]; [discriminate|]). destruct S; [|discriminate]. reflexivity.
Qed.
Lemma view_16 S : length S = 8%nat -> view 16 S = S.
Proof.
  intros HS. do 8 (destruct S as [|? S]; [discriminate|]). destruct S; [|discriminate]. reflexivity.
Qed.

Lemma nth_skipn {A} (l : list A) o i d : nth i (skipn o l) d = nth (o + i) l d.
Proof.
  revert l; induction o as [|o IH]; intros l; [reflexivity|].
  destruct l as [|x l]; [destruct i; reflexivity|]. apply IH.
Qed.
Lemma nth_firstn {A} (l : list A) n i d : (i < n)%nat -> nth i (firstn n l) d = nth i l d.
Proof.
  revert l i; induction n as [|n IH]; intros l i H; [lia|].
  destruct l as [|x l]; [reflexivity|]. destruct i as [|i]; [reflexivity|].
  cbn [firstn nth]. apply IH. lia.
Qed.
Lemma sel_sub l o n i : (i < n)%nat -> sel (sub l o n) i = sel l (o + i).
Proof. intros H. unfold sel, sub. rewrite nth_firstn by auto. apply nth_skipn. Qed.

Lemma sub_S l o n : (o + n < length l)%nat -> sub l o (S n) = sub l o n ++ [sel l (o + n)].
Proof.
  revert l o; intros l o; revert l; induction o as [|o IH]; intros l H.
  - unfold sub, sel. simpl skipn. revert l H. induction n as [|n IHn]; intros l H;
      (destruct l as [|x l]; [simpl in *; lia|]); [reflexivity|].
    cbn [firstn]. simpl app. f_equal. simpl in H. rewrite Nat.add_0_l in *.
    apply (IHn l). lia.
  - destruct l as [|x l]; [simpl in *; lia|]. unfold sub, sel in *.
    cbn [skipn]. rewrite IH by (simpl in *; lia). reflexivity.
Qed.

Lemma rounds256_app s k1 k2 w1 w2 : length k1 = length w1 ->
  rounds256 s (k1 ++ k2) (w1 ++ w2) = rounds256 (rounds256 s k1 w1) k2 w2.
Proof.
  revert s w1; induction k1 as [|k k1 IH]; intros s [|w w1] H; simpl in *; try lia; auto.
Qed.

Lemma rnd_prefix S W i n : (n <= 16)%nat -> length S = 8%nat ->
  (i + 16 <= length W)%nat -> (i + 16 <= 64)%nat ->
  view n (fold_left (fun S j => RNDr S W j i) (seq 0 n) S) =
  rounds256 S (sub Krnd i n) (sub W i n) /\
  length (fold_left (fun S j => RNDr S W j i) (seq 0 n) S) = 8%nat.
Proof.
  intros Hn HS HW Hi. induction n as [|n IH].
  - simpl. split; auto. apply view_0. auto.
  - destruct IH as [IH1 IH2]; [lia|].
    rewrite seq_S, fold_left_app. cbn [fold_left]. rewrite Nat.add_0_l.
    split; [|rewrite RNDr_length; exact IH2].
    replace (Datatypes.S n) with (n + 1)%nat by lia.
    rewrite RNDr_view by (try lia; auto).
    rewrite IH1, Nat.add_1_r.
    assert (length Krnd = 64%nat) as HK by reflexivity.
    rewrite !sub_S by lia.
    rewrite rounds256_app by (rewrite !sub_length by lia; reflexivity).
    cbn [rounds256]. rewrite (Nat.add_comm i n). reflexivity.
Qed.

Lemma rnd16_spec S W i : length S = 8%nat -> (i + 16 <= length W)%nat -> (i + 16 <= 64)%nat ->
  rnd16 S W i = rounds256 S (sub K256 i 16) (sub W i 16) /\ length (rnd16 S W i) = 8%nat.
Proof.
  intros HS HW Hi. unfold rnd16.
  destruct (rnd_prefix S W i 16 ltac:(lia) HS HW Hi) as [H1 H2].
  split; [|exact H2]. rewrite view_16 in H1 by exact H2. rewrite H1, Krnd_spec. reflexivity.
Qed.

(* ---------------- message schedule ---------------- *)
Lemma extend_W_length n W : length (extend_W n W) = (length W + n)%nat.
Proof.
  revert W; induction n as [|n IH]; intros W; simpl; [lia|].
  rewrite IH, app_length. simpl. lia.
Qed.
Lemma extend_W_add n m W : extend_W (n + m) W = extend_W m (extend_W n W).
Proof. revert W; induction n as [|n IH]; intros W; simpl; auto. Qed.
Lemma extend_W_S n W : extend_W (S n) W = extend_W n W ++ [next_W (extend_W n W)].
Proof. replace (S n) with (n + 1)%nat by lia. rewrite extend_W_add. reflexivity. Qed.

Lemma firstn_set_nth {A} (l : list A) n v : (n < length l)%nat ->
  firstn (S n) (set_nth l n v) = firstn n l ++ [v].
Proof.
  revert n; induction l as [|x l IH]; intros [|n] H; simpl in *; try lia; auto.
  f_equal. change (match set_nth l n v with [] => [] | a :: l0 => a :: firstn n l0 end)
    with (firstn (S n) (set_nth l n v)). apply IH. lia.
Qed.

Lemma msch_step W W16 n i j : length W = 64%nat -> (j + i + 16 < 64)%nat -> n = (j + i)%nat ->
  length W16 = 16%nat ->
  firstn (16 + n) W = extend_W n W16 ->
  firstn (16 + S n) (MSCH W j i) = extend_W (S n) W16 /\ length (MSCH W j i) = 64%nat.
Proof.
  intros HW Hb -> H16 HF. unfold MSCH.
  split; [|rewrite set_nth_length; exact HW].
  rewrite extend_W_S, <- HF.
  replace (16 + S (j + i))%nat with (S (i + j + 16)) by lia.
  rewrite firstn_set_nth by lia.
  replace (16 + (j + i))%nat with (i + j + 16)%nat by lia.
  f_equal. f_equal. unfold next_W.
  rewrite firstn_length, HW. replace (Nat.min (i + j + 16) 64) with (i + j + 16)%nat by lia.
  rewrite !nth_firstn by lia. unfold sel.
  replace (i + j + 16 - 2)%nat with (i + j + 14)%nat by lia.
  replace (i + j + 16 - 7)%nat with (i + j + 9)%nat by lia.
  replace (i + j + 16 - 15)%nat with (i + j + 1)%nat by lia.
  replace (i + j + 16 - 16)%nat with (i + j)%nat by lia.
  reflexivity.
Qed.

Lemma msch16_spec W W16 i : length W = 64%nat -> (i + 32 <= 64)%nat -> length W16 = 16%nat ->
  firstn (16 + i) W = extend_W i W16 ->
  firstn (32 + i) (msch16 W i) = extend_W (i + 16) W16 /\ length (msch16 W i) = 64%nat.
Proof.
  intros HW Hi H16 HF. unfold msch16.
  assert (forall n, (n <= 16)%nat ->
    firstn (16 + (n + i)) (fold_left (fun W j => MSCH W j i) (seq 0 n) W) = extend_W (n + i) W16 /\
    length (fold_left (fun W j => MSCH W j i) (seq 0 n) W) = 64%nat) as H.
  { induction n as [|n IH]; intros Hn.
    - simpl. auto.
    - destruct IH as [I1 I2]; [lia|].
      rewrite seq_S, fold_left_app. cbn [fold_left].
      replace (S n + i)%nat with (S (n + i)) by lia.
      apply msch_step; auto; lia. }
  destruct (H 16%nat ltac:(lia)) as [H1 H2]. split; [|exact H2].
  replace (32 + i)%nat with (16 + (16 + i))%nat by lia.
  replace (i + 16)%nat with (16 + i)%nat by lia. exact H1.
Qed.

(* ---------------- be32dec_vect ---------------- *)
Lemma be32dec_loop_spec n i dst src :
  ((i + n) * 4 <= length src)%nat -> (i + n <= length dst)%nat -> bytes_ok src ->
  be32dec_loop n i dst src =
  Ok (upd dst i (map be_val (chunks 4 (sub src (i * 4) (n * 4))))).
Proof.
  revert i dst; induction n as [|n IH]; intros i dst Hs Hd Hb.
  - simpl. unfold sub. simpl. unfold upd. simpl. rewrite Nat.add_0_r, firstn_skipn. reflexivity.
  - cbn [be32dec_loop]. rewrite rd_ok by lia. cbn [bind].
    rewrite wr_ok by (simpl; lia). cbn [bind].
    rewrite IH; try lia; auto; [|rewrite upd_length; simpl; lia].
    f_equal.
    assert (sub src (i * 4) (S n * 4) = sub src (i * 4) 4 ++ sub src (S i * 4) (n * 4)) as ->.
    { unfold sub. replace (S i * 4)%nat with (4 + i * 4)%nat by lia.
      rewrite <- skipn_skipn.
      replace (S n * 4)%nat with (4 + n * 4)%nat by lia.
      rewrite <- (firstn_skipn 4 (skipn (i * 4) src)) at 1.
      rewrite firstn_app. rewrite firstn_length, skipn_length.
      replace (4 + n * 4 - Nat.min 4 (length src - i * 4))%nat with (n * 4)%nat by lia.
      rewrite (firstn_all2 (n := 4 + n * 4)); [reflexivity|].
      rewrite firstn_length. lia. }
    rewrite chunks_app_block by (try lia; apply sub_length; lia).
    cbn [map].
    rewrite be32dec_spec by (try (apply sub_length; lia); apply Forall_sub; exact Hb).
    set (x := be_val (sub src (i * 4) 4)).
    set (xs := map be_val (chunks 4 (sub src (S i * 4) (n * 4)))).
    change (x :: xs) with ([x] ++ xs). rewrite <- upd_adjacent by (simpl; lia).
    f_equal. simpl. lia.
Qed.

Lemma be32dec_vect_64 W block : length W = 64%nat -> length block = 64%nat -> bytes_ok block ->
  exists tl, be32dec_vect W block 64 = Ok (map be_val (chunks 4 block) ++ tl) /\
   length (map be_val (chunks 4 block) ++ tl) = 64%nat.
Proof.
  intros HW Hb Hok. unfold be32dec_vect.
  change (assert_ (Nat.eqb (64 mod 4) 0)) with (Ok tt). cbn [bind].
  change (64 / 4)%nat with 16%nat.
  rewrite be32dec_loop_spec by (try lia; auto).
  rewrite sub_0_all by lia.
  assert (length (map be_val (chunks 4 block)) = 16%nat) as HL.
  { rewrite map_length.
    do 64 (destruct block as [|? block]; [discriminate|]). destruct block; [|discriminate].
    reflexivity. }
  exists (skipn 16 W). unfold upd. rewrite HL. simpl firstn. rewrite app_nil_l. split; [reflexivity|].
  rewrite app_length, HL, skipn_length. lia.
Qed.

Lemma schedule_words_length block : length block = 64%nat ->
  length (map be_val (chunks 4 block)) = 16%nat.
Proof.
  intros Hb. rewrite map_length.
  do 64 (destruct block as [|? block]; [discriminate|]). destruct block; [|discriminate].
  reflexivity.
Qed.

(* ---------------- the whole transform ---------------- *)
Lemma rounds64_split s W : length W = 64%nat ->
  rounds256 s K256 W =
  rounds256 (rounds256 (rounds256 (rounds256 s (sub K256 0 16) (sub W 0 16))
    (sub K256 16 16) (sub W 16 16)) (sub K256 32 16) (sub W 32 16)) (sub K256 48 16) (sub W 48 16).
Proof.
  intros HW.
  assert (forall l : list N, length l = 64%nat ->
    l = sub l 0 16 ++ sub l 16 16 ++ sub l 32 16 ++ sub l 48 16) as H.
  { intros l Hl. unfold sub.
    rewrite (firstn_all2 (n := 16) (skipn 48 l)) by (rewrite skipn_length; lia).
    change 48%nat with (16 + 32)%nat. rewrite <- skipn_skipn, firstn_skipn.
    change 32%nat with (16 + 16)%nat. rewrite <- skipn_skipn, firstn_skipn.
    change (skipn 16 l) with (skipn 16 (skipn 0 l)). rewrite firstn_skipn. reflexivity. }
  pose proof K256_length as HK.
  rewrite (H K256 HK) at 1. rewrite (H W HW) at 1.
  rewrite rounds256_app by (rewrite !sub_length by lia; reflexivity).
  rewrite rounds256_app by (rewrite !sub_length by lia; reflexivity).
  rewrite rounds256_app by (rewrite !sub_length by lia; reflexivity).
  reflexivity.
Qed.

Lemma sub_firstn {A} (l : list A) o n k : (o + n <= k)%nat -> sub (firstn k l) o n = sub l o n.
Proof.
  intros H. unfold sub. 
  revert l k H; induction o as [|o IH]; intros l k H.
  - simpl. rewrite firstn_firstn. f_equal. lia.
  - destruct l as [|x l]; [rewrite firstn_nil; reflexivity|].
    destruct k as [|k]; [lia|]. cbn [firstn skipn]. apply IH. lia.
Qed.

Lemma add_state_map2 a b : length a = 8%nat -> length b = 8%nat ->
  add_state a b = map2 add32 a b.
Proof.
  intros Ha Hb.
  do 8 (destruct a as [|? a]; [discriminate|]). destruct a; [|discriminate].
  do 8 (destruct b as [|? b]; [discriminate|]). destruct b; [|discriminate].
  reflexivity.
Qed.

Lemma map2_length f a b : length (map2 f a b) = Nat.min (length a) (length b).
Proof. revert b; induction a as [|x a IH]; intros [|y b]; simpl; auto. Qed.

Lemma round256_length s k w : length (round256 s k w) = length s.
Proof.
  unfold round256. do 8 (destruct s as [|? s]; [reflexivity|]). destruct s; reflexivity.
Qed.
Lemma rounds256_length s k w : length (rounds256 s k w) = length s.
Proof.
  revert s w; induction k as [|k ks IH]; intros s [|w w']; simpl; auto.
  rewrite IH. apply round256_length.
Qed.
Lemma compress_length s b : length (compress s b) = length s.
Proof. unfold compress. rewrite map2_length, rounds256_length. lia. Qed.

Lemma extend_W_firstn n m W : firstn (length W + n) (extend_W (n + m) W) = extend_W n W.
Proof.
  rewrite extend_W_add. rewrite <- (extend_W_length n W).
  generalize (extend_W n W). intros l. clear.
  assert (exists t, extend_W m l = l ++ t) as [t ->].
  { revert l; induction m as [|m IH]; intros l; [exists []; rewrite app_nil_r; reflexivity|].
    simpl. destruct (IH (l ++ [next_W l])) as [t Ht]. rewrite Ht, <- app_assoc. eauto. }
  rewrite firstn_app, Nat.sub_diag, firstn_all, firstn_O. apply app_nil_r.
Qed.

Lemma extend_sub W16 n m o k : length W16 = 16%nat -> (o + k <= 16 + n)%nat ->
  sub (extend_W n W16) o k = sub (extend_W (n + m) W16) o k.
Proof.
  intros H16 Hk. rewrite <- (extend_W_firstn n m W16). apply sub_firstn. lia.
Qed.

Theorem SHA256_Transform_sw_correct state block W :
  length state = 8%nat -> length block = 64%nat -> bytes_ok block -> length W = 64%nat ->
  SHA256_Transform_sw state block W = Ok (compress state block).
Proof.
  intros Hs Hb Hok HW. unfold SHA256_Transform_sw.
  destruct (be32dec_vect_64 W block HW Hb Hok) as [tl [-> HL]]. cbn [bind].
  rewrite rd_ok by lia. cbn [bind]. rewrite sub_0_all by lia.
  unfold mix_loop. f_equal.
  pose proof (schedule_words_length block Hb) as H16.
  unfold compress, schedule.
  set (W16 := map be_val (chunks 4 block)) in *.
  set (W0 := W16 ++ tl) in *.
  assert (firstn 16 W0 = extend_W 0 W16) as F0.
  { unfold W0. rewrite firstn_app, H16. simpl firstn at 2. rewrite app_nil_r.
    rewrite firstn_all2 by lia. reflexivity. }
  destruct (rnd16_spec state W0 0 Hs ltac:(lia) ltac:(lia)) as [R0 L0].
  destruct (msch16_spec W0 W16 0 HL ltac:(lia) H16 F0) as [F1 M1].
  destruct (rnd16_spec _ (msch16 W0 0) 16 L0 ltac:(lia) ltac:(lia)) as [R1 L1].
  destruct (msch16_spec _ W16 16 M1 ltac:(lia) H16 F1) as [F2 M2].
  destruct (rnd16_spec _ (msch16 (msch16 W0 0) 16) 32 L1 ltac:(lia) ltac:(lia)) as [R2 L2].
  destruct (msch16_spec _ W16 32 M2 ltac:(lia) H16 F2) as [F3 M3].
  destruct (rnd16_spec _ (msch16 (msch16 (msch16 W0 0) 16) 32) 48 L2 ltac:(lia) ltac:(lia)) as [R3 L3].
  rewrite add_state_map2 by (auto; lia). f_equal.
  rewrite rounds64_split by (rewrite extend_W_length; lia).
  rewrite R3, R2, R1, R0.
  repeat match goal with |- rounds256 _ _ _ = rounds256 _ _ _ => f_equal end.
  - rewrite <- (sub_firstn W0 0 16 16) by lia. rewrite F0. apply (extend_sub W16 0 48); auto.
  - rewrite <- (sub_firstn (msch16 W0 0) 16 16 32) by lia.
    change 32%nat with (32 + 0)%nat at 1. rewrite F1. apply (extend_sub W16 16 32); auto.
  - rewrite <- (sub_firstn _ 32 16 48) by lia.
    change 48%nat with (32 + 16)%nat at 1. rewrite F2. apply (extend_sub W16 32 16); auto.
  - rewrite <- (sub_firstn _ 48 16 64) by lia.
    change 64%nat with (32 + 32)%nat at 1. rewrite F3. reflexivity.
Qed.
