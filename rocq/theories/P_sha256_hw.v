(** The SSE2, SHA-NI and ARM block transforms compute the FIPS 180-4
    compression function. *)
From Verif Require Import Base SpecBytes SpecSHA M_endian P_endian M_sha256_tr P_sha256_tr
  M_simd M_sha256_hw.

(* ---------------- schedule, four words at a time ---------------- *)
Definition nxt (w16 w15 w7 w2 : N) : N :=
  add32 (add32 (add32 (sigma1 w2) w7) (sigma0 w15)) w16.

Definition quad (Y0 Y1 Y2 Y3 : v4) : list N := vwords Y0 ++ vwords Y1 ++ vwords Y2 ++ vwords Y3.

(** the four next schedule words *)
Definition msg4_spec (Y0 Y1 Y2 Y3 : v4) : v4 :=
  match Y0, Y1, Y2, Y3 with
  | V4 x0 x1 x2 x3, V4 x4 _ _ _, V4 _ x9 x10 x11, V4 x12 _ x14 x15 =>
      let y0 := nxt x0 x1 x9 x14 in
      let y1 := nxt x1 x2 x10 x15 in
      let y2 := nxt x2 x3 x11 y0 in
      let y3 := nxt x3 x4 x12 y1 in V4 y0 y1 y2 y3
  end.

Lemma next_W_16 pre l : length l = 16%nat ->
  next_W (pre ++ l) = nxt (nth 0 l 0) (nth 1 l 0) (nth 9 l 0) (nth 14 l 0).
Proof.
  intros Hl. unfold next_W, nxt. rewrite app_length, Hl.
  replace (length pre + 16 - 2)%nat with (length pre + 14)%nat by lia.
  replace (length pre + 16 - 7)%nat with (length pre + 9)%nat by lia.
  replace (length pre + 16 - 15)%nat with (length pre + 1)%nat by lia.
  replace (length pre + 16 - 16)%nat with (length pre + 0)%nat by lia.
  rewrite !app_nth2_plus. reflexivity.
Qed.

Lemma extend_4 pre Y0 Y1 Y2 Y3 :
  extend_W 4 (pre ++ quad Y0 Y1 Y2 Y3) =
  pre ++ quad Y0 Y1 Y2 Y3 ++ vwords (msg4_spec Y0 Y1 Y2 Y3).
Proof.
  destruct Y0 as [x0 x1 x2 x3], Y1 as [x4 x5 x6 x7], Y2 as [x8 x9 x10 x11], Y3 as [x12 x13 x14 x15].
  cbn [extend_W]. unfold quad. cbn [vwords app].
  rewrite next_W_16 by reflexivity. cbn [nth].
  set (y0 := nxt x0 x1 x9 x14).
  replace ((pre ++ [x0; x1; x2; x3; x4; x5; x6; x7; x8; x9; x10; x11; x12; x13; x14; x15]) ++ [y0])
    with ((pre ++ [x0]) ++ [x1; x2; x3; x4; x5; x6; x7; x8; x9; x10; x11; x12; x13; x14; x15; y0])
    by (rewrite <- !app_assoc; reflexivity).
  rewrite next_W_16 by reflexivity. cbn [nth].
  set (y1 := nxt x1 x2 x10 x15).
  replace (((pre ++ [x0]) ++ [x1; x2; x3; x4; x5; x6; x7; x8; x9; x10; x11; x12; x13; x14; x15; y0]) ++ [y1])
    with ((pre ++ [x0; x1]) ++ [x2; x3; x4; x5; x6; x7; x8; x9; x10; x11; x12; x13; x14; x15; y0; y1])
    by (rewrite <- !app_assoc; reflexivity).
  rewrite next_W_16 by reflexivity. cbn [nth].
  set (y2 := nxt x2 x3 x11 y0).
  replace (((pre ++ [x0; x1]) ++ [x2; x3; x4; x5; x6; x7; x8; x9; x10; x11; x12; x13; x14; x15; y0; y1]) ++ [y2])
    with ((pre ++ [x0; x1; x2]) ++ [x3; x4; x5; x6; x7; x8; x9; x10; x11; x12; x13; x14; x15; y0; y1; y2])
    by (rewrite <- !app_assoc; reflexivity).
  rewrite next_W_16 by reflexivity. cbn [nth].
  rewrite <- !app_assoc. reflexivity.
Qed.

Lemma nxt_lt a b c d : nxt a b c d < 2 ^ 32. Proof. apply add32_lt. Qed.
Lemma msg4_spec_ok Y0 Y1 Y2 Y3 : vwords_ok (msg4_spec Y0 Y1 Y2 Y3).
Proof.
  destruct Y0, Y1, Y2, Y3. unfold vwords_ok, words_ok. cbn [msg4_spec vwords].
  repeat constructor; apply nxt_lt.
Qed.

(** sixteen more words *)
Lemma extend_16 pre Y0 Y1 Y2 Y3 :
  let Z0 := msg4_spec Y0 Y1 Y2 Y3 in
  let Z1 := msg4_spec Y1 Y2 Y3 Z0 in
  let Z2 := msg4_spec Y2 Y3 Z0 Z1 in
  let Z3 := msg4_spec Y3 Z0 Z1 Z2 in
  extend_W 16 (pre ++ quad Y0 Y1 Y2 Y3) = pre ++ quad Y0 Y1 Y2 Y3 ++ quad Z0 Z1 Z2 Z3.
Proof.
  intros Z0 Z1 Z2 Z3.
  change 16%nat with (4 + (4 + (4 + 4)))%nat. rewrite !extend_W_add.
  rewrite extend_4. fold Z0.
  replace (pre ++ quad Y0 Y1 Y2 Y3 ++ vwords Z0) with ((pre ++ vwords Y0) ++ quad Y1 Y2 Y3 Z0)
    by (unfold quad; rewrite <- !app_assoc; reflexivity).
  rewrite extend_4. fold Z1.
  replace ((pre ++ vwords Y0) ++ quad Y1 Y2 Y3 Z0 ++ vwords Z1)
    with ((pre ++ vwords Y0 ++ vwords Y1) ++ quad Y2 Y3 Z0 Z1)
    by (unfold quad; rewrite <- !app_assoc; reflexivity).
  rewrite extend_4. fold Z2.
  replace ((pre ++ vwords Y0 ++ vwords Y1) ++ quad Y2 Y3 Z0 Z1 ++ vwords Z2)
    with ((pre ++ vwords Y0 ++ vwords Y1 ++ vwords Y2) ++ quad Y3 Z0 Z1 Z2)
    by (unfold quad; rewrite <- !app_assoc; reflexivity).
  rewrite extend_4. fold Z3.
  unfold quad; rewrite <- !app_assoc; reflexivity.
Qed.

(* ---------------- loading the block ---------------- *)
Definition load_be (block : bytes) (o : nat) : v4 :=
  V4 (be_val (sub block o 4)) (be_val (sub block (o + 4) 4))
     (be_val (sub block (o + 8) 4)) (be_val (sub block (o + 12) 4)).

Lemma schedule_quad block : length block = 64%nat ->
  map be_val (chunks 4 block) =
  quad (load_be block 0) (load_be block 16) (load_be block 32) (load_be block 48).
Proof.
  intros Hb.
  do 64 (destruct block as [|? block]; [discriminate|]). destruct block; [|discriminate].
  reflexivity.
Qed.

Lemma be_val4_lt l : bytes_ok l -> (length l <= 4)%nat -> be_val l < 2 ^ 32.
Proof.
  intros H Hl. eapply N.lt_le_trans; [apply be_val_bound; exact H|].
  change (2 ^ 32) with (256 ^ 4). apply N.pow_le_mono_r; [discriminate|]. lia.
Qed.
Lemma load_be_ok block o : bytes_ok block -> vwords_ok (load_be block o).
Proof.
  intros H. unfold vwords_ok, words_ok, load_be. cbn [vwords].
  repeat constructor; (apply be_val4_lt; [apply Forall_sub; exact H|]);
    unfold sub; rewrite firstn_length; lia.
Qed.

Lemma sub_sub {A} (l : list A) o n o' n' : (o' + n' <= n)%nat ->
  sub (sub l o n) o' n' = sub l (o + o') n'.
Proof.
  intros H. unfold sub at 2. rewrite sub_firstn by lia. unfold sub. rewrite skipn_skipn.
  f_equal. f_equal. lia.
Qed.

(** a 4-byte word, both byte orders, as shifts *)
Lemma le_bytes_le_val4 l : length l = 4%nat -> bytes_ok l -> le_bytes 4 (le_val l) = l.
Proof. intros Hl Hb. rewrite <- Hl at 1. apply le_bytes_le_val. exact Hb. Qed.

Lemma vload8_spec block o : (o + 16 <= length block)%nat ->
  vload8 block o = Ok (V4 (le_val (sub block o 4)) (le_val (sub block (o + 4) 4))
     (le_val (sub block (o + 8) 4)) (le_val (sub block (o + 12) 4))).
Proof.
  intros H. unfold vload8. rewrite rd_ok by lia. cbn [bind].
  rewrite !sub_sub by lia. rewrite Nat.add_0_r. reflexivity.
Qed.

Lemma shuffle_be32 w0 w1 w2 w3 :
  mm_shuffle_epi8 (V4 w0 w1 w2 w3) shuf_be32 =
  V4 (be_val (le_bytes 4 w0)) (be_val (le_bytes 4 w1))
     (be_val (le_bytes 4 w2)) (be_val (le_bytes 4 w3)).
Proof.
  unfold mm_shuffle_epi8, vbytes.
  cbn [vwords flat_map le_bytes app shuf_be32 map sel nth sub skipn firstn le_val].
  unfold be_val. cbn [fold_left].
  f_equal; lia.
Qed.

Lemma be32dec_128_spec block o : (o + 16 <= length block)%nat -> bytes_ok block ->
  be32dec_128 block o = Ok (load_be block o).
Proof.
  intros H Hb. unfold be32dec_128. rewrite vload8_spec by lia. cbn [bind].
  rewrite shuffle_be32.
  rewrite !le_bytes_le_val4 by (try (apply sub_length; lia); apply Forall_sub; exact Hb).
  reflexivity.
Qed.

Lemma vrev_spec block o : (o + 16 <= length block)%nat -> bytes_ok block ->
  exists b, vload8 block o = Ok b /\ vrev32q_u8 b = load_be block o.
Proof.
  intros H Hb. rewrite vload8_spec by lia. eexists; split; [reflexivity|].
  unfold vrev32q_u8. cbn [vmap].
  rewrite !le_bytes_le_val4 by (try (apply sub_length; lia); apply Forall_sub; exact Hb).
  reflexivity.
Qed.

(* ---------------- SSE2 byte swap ---------------- *)
Lemma half_low a b : a < 65536 -> N.land (a + 65536 * b) 0xffff = a.
Proof.
  intros H. change 0xffff with (N.ones 16). rewrite N.land_ones. change (2 ^ 16) with 65536.
  rewrite N.mul_comm, N.mod_add by discriminate. apply N.mod_small. exact H.
Qed.
Lemma half_high a b : a < 65536 -> N.shiftr (a + 65536 * b) 16 = b.
Proof.
  intros H. rewrite N.shiftr_div_pow2. change (2 ^ 16) with 65536.
  rewrite N.mul_comm, N.div_add by discriminate. rewrite N.div_small by exact H. lia.
Qed.
Lemma half_shl8 a b : a < 256 -> b < 256 -> N.land (N.shiftl (a + 256 * b) 8) 0xffff = 256 * a.
Proof.
  intros Ha Hb. change 0xffff with (N.ones 16). rewrite N.land_ones, N.shiftl_mul_pow2.
  change (2 ^ 16) with 65536. change (2 ^ 8) with 256.
  replace ((a + 256 * b) * 256) with (256 * a + b * 65536) by lia.
  rewrite N.mod_add by discriminate. apply N.mod_small. lia.
Qed.
Lemma half_shr8 a b : a < 256 -> N.shiftr (a + 256 * b) 8 = b.
Proof.
  intros Ha. rewrite N.shiftr_div_pow2. change (2 ^ 8) with 256.
  rewrite N.mul_comm, N.div_add by discriminate. rewrite N.div_small by exact Ha. lia.
Qed.

Lemma lor_bytes a b c d : a < 256 -> b < 256 -> c < 256 -> d < 256 ->
  N.lor (256 * a + 65536 * (256 * c)) (b + 65536 * d) = (b + 256 * a) + 65536 * (d + 256 * c).
Proof.
  intros Ha Hb Hc Hd.
  assert (256 * a + 65536 * (256 * c) = N.lor (N.shiftl a 8) (N.shiftl c 24)) as ->.
  { rewrite shl_lor_add by (rewrite N.shiftl_mul_pow2; lia). rewrite N.shiftl_mul_pow2. lia. }
  assert (b + 65536 * d = N.lor b (N.shiftl d 16)) as ->.
  { rewrite shl_lor_add by lia. lia. }
  assert (b + 256 * a + 65536 * (d + 256 * c)
     = N.lor (N.lor (N.lor b (N.shiftl a 8)) (N.shiftl d 16)) (N.shiftl c 24)) as ->.
  { rewrite (shl_lor_add b a 8) by lia. rewrite (shl_lor_add _ d 16) by lia.
    rewrite (shl_lor_add _ c 24) by lia. lia. }
  bitwise.
Qed.

Lemma swap16_word b0 b1 b2 b3 : b0 < 256 -> b1 < 256 -> b2 < 256 -> b3 < 256 ->
  N.lor (halves (fun h => N.land (N.shiftl h 8) 0xffff) (le_val [b0; b1; b2; b3]))
        (halves (fun h => N.shiftr h 8) (le_val [b0; b1; b2; b3])) =
  (b1 + 256 * b0) + 65536 * (b3 + 256 * b2).
Proof.
  intros. cbn [le_val].
  replace (b0 + 256 * (b1 + 256 * (b2 + 256 * (b3 + 256 * 0))))
    with ((b0 + 256 * b1) + 65536 * (b2 + 256 * b3)) by lia.
  unfold halves. change 0x10000 with 65536.
  rewrite half_low, half_high by lia.
  rewrite !half_shl8, !half_shr8 by assumption.
  apply lor_bytes; assumption.
Qed.

Lemma bswap_spec block o : (o + 16 <= length block)%nat -> bytes_ok block ->
  exists b, vload8 block o = Ok b /\ mm_bswap_epi32 b = load_be block o.
Proof.
  intros H Hb. rewrite vload8_spec by lia. eexists; split; [reflexivity|].
  unfold load_be.
  assert (forall k, (k + 4 <= length block)%nat -> exists b0 b1 b2 b3, sub block k 4 = [b0; b1; b2; b3]
    /\ b0 < 256 /\ b1 < 256 /\ b2 < 256 /\ b3 < 256) as HS.
  { intros k Hk. assert (length (sub block k 4) = 4%nat) as HL by (apply sub_length; lia).
    assert (bytes_ok (sub block k 4)) as HB by (apply Forall_sub; exact Hb).
    destruct (sub block k 4) as [|b0 [|b1 [|b2 [|b3 [|]]]]]; try discriminate.
    unfold bytes_ok in HB. rewrite !Forall_cons_iff in HB.
    exists b0, b1, b2, b3. tauto. }
  destruct (HS o ltac:(lia)) as (p0 & p1 & p2 & p3 & -> & ? & ? & ? & ?).
  destruct (HS (o + 4)%nat ltac:(lia)) as (q0 & q1 & q2 & q3 & -> & ? & ? & ? & ?).
  destruct (HS (o + 8)%nat ltac:(lia)) as (r0 & r1 & r2 & r3 & -> & ? & ? & ? & ?).
  destruct (HS (o + 12)%nat ltac:(lia)) as (s0 & s1 & s2 & s3 & -> & ? & ? & ? & ?).
  unfold mm_bswap_epi32, mm_slli_epi16, mm_srli_epi16, mm_or. cbn [vmap vmap2].
  rewrite !swap16_word by assumption.
  unfold mm_shufflelo_epi16, mm_shufflehi_epi16, shuf16.
  change (imm2 (MM_SHUFFLE 2 3 0 1) 0) with 1.
  change (imm2 (MM_SHUFFLE 2 3 0 1) 1) with 0.
  change (imm2 (MM_SHUFFLE 2 3 0 1) 2) with 3.
  change (imm2 (MM_SHUFFLE 2 3 0 1) 3) with 2.
  cbn [h16]. rewrite !half_low, !half_high by lia.
  unfold be_val. cbn [fold_left]. change 0x10000 with 65536. f_equal; lia.
Qed.

(* ---------------- SSE2 schedule ---------------- *)
Lemma testbit_high x i : x < 2 ^ 32 -> 32 <= i -> N.testbit x i = false.
Proof. intros H Hi. apply (proj1 (N_lt_pow2_testbit x 32) H i Hi). Qed.

Lemma rot64 x n : x < 2 ^ 32 -> n <= 32 ->
  w32 (N.shiftr (x + 0x100000000 * x) n) = rotr32 n x.
Proof.
  intros Hx Hn. unfold rotr32, w32.
  replace (x + 0x100000000 * x) with (N.lor x (N.shiftl x 32))
    by (rewrite shl_lor_add by exact Hx; change (2 ^ 32) with 0x100000000; lia).
  change 0xffffffff with (N.ones 32).
  apply N.bits_inj; intros i.
  rewrite N.land_spec, N.lor_spec, N.land_spec, !N.shiftr_spec', N.lor_spec.
  destruct (N.lt_ge_cases i 32) as [Hi|Hi].
  - rewrite !N.ones_spec_low by auto. rewrite !andb_true_r.
    destruct (N.lt_ge_cases (i + n) 32) as [Hin|Hin].
    + rewrite N.shiftl_spec_low by auto. rewrite N.shiftl_spec_low by lia. reflexivity.
    + rewrite !N.shiftl_spec_high' by lia. replace (i - (32 - n)) with (i + n - 32) by lia. reflexivity.
  - rewrite !N.ones_spec_high by auto. rewrite !andb_false_r.
    rewrite testbit_high by (auto; lia). reflexivity.
Qed.

Lemma add32_0_r x : x < 2 ^ 32 -> add32 x 0 = x.
Proof. intros H. unfold add32. rewrite N.add_0_r. apply w32_small. exact H. Qed.

Lemma s1_low_spec a b c d : c < 2 ^ 32 -> d < 2 ^ 32 ->
  s1_128_low (V4 a b c d) = V4 (sigma1 c) (sigma1 d) 0 0.
Proof.
  intros Hc Hd. unfold s1_128_low, mm_shuffle_epi32.
  change (imm2 (MM_SHUFFLE 3 3 2 2) 0) with 2. change (imm2 (MM_SHUFFLE 3 3 2 2) 1) with 2.
  change (imm2 (MM_SHUFFLE 3 3 2 2) 2) with 3. change (imm2 (MM_SHUFFLE 3 3 2 2) 3) with 3.
  change (imm2 (MM_SHUFFLE 2 0 2 0) 0) with 0. change (imm2 (MM_SHUFFLE 2 0 2 0) 1) with 2.
  change (imm2 (MM_SHUFFLE 2 0 2 0) 2) with 0. change (imm2 (MM_SHUFFLE 2 0 2 0) 3) with 2.
  unfold mm_srli_epi64, shr64, mm_xor, mm_srli_epi32.
  cbn [vlane vmap vmap2 mm_srli_si128_8].
  rewrite !rot64 by (auto; discriminate). reflexivity.
Qed.
Lemma s1_high_spec a b c d : a < 2 ^ 32 -> b < 2 ^ 32 ->
  s1_128_high (V4 a b c d) = V4 0 0 (sigma1 a) (sigma1 b).
Proof.
  intros Ha Hb. unfold s1_128_high, mm_shuffle_epi32.
  change (imm2 (MM_SHUFFLE 1 1 0 0) 0) with 0. change (imm2 (MM_SHUFFLE 1 1 0 0) 1) with 0.
  change (imm2 (MM_SHUFFLE 1 1 0 0) 2) with 1. change (imm2 (MM_SHUFFLE 1 1 0 0) 3) with 1.
  change (imm2 (MM_SHUFFLE 2 0 2 0) 0) with 0. change (imm2 (MM_SHUFFLE 2 0 2 0) 1) with 2.
  change (imm2 (MM_SHUFFLE 2 0 2 0) 2) with 0. change (imm2 (MM_SHUFFLE 2 0 2 0) 3) with 2.
  unfold mm_srli_epi64, shr64, mm_xor, mm_srli_epi32.
  cbn [vlane vmap vmap2 mm_slli_si128_8].
  rewrite !rot64 by (auto; discriminate). reflexivity.
Qed.
Lemma span_spec a0 a1 a2 a3 b0 b1 b2 b3 :
  SPAN_ONE_THREE (V4 a0 a1 a2 a3) (V4 b0 b1 b2 b3) = V4 a1 a2 a3 b0.
Proof. reflexivity. Qed.
Lemma s0_128_spec a b c d : s0_128 (V4 a b c d) = V4 (sigma0 a) (sigma0 b) (sigma0 c) (sigma0 d).
Proof. reflexivity. Qed.

Lemma MSG4_sse2_spec Y0 Y1 Y2 Y3 : vwords_ok Y3 ->
  MSG4_sse2 Y0 Y1 Y2 Y3 = msg4_spec Y0 Y1 Y2 Y3.
Proof.
  destruct Y0 as [x0 x1 x2 x3], Y1 as [x4 x5 x6 x7], Y2 as [x8 x9 x10 x11], Y3 as [x12 x13 x14 x15].
  intros H. unfold vwords_ok, words_ok in H. cbn [vwords] in H.
  rewrite !Forall_cons_iff in H. destruct H as (_ & _ & H14 & H15 & _).
  unfold MSG4_sse2. rewrite !span_spec, s0_128_spec, s1_low_spec by assumption.
  unfold mm_add_epi32. cbn [vmap2].
  rewrite s1_high_spec by apply add32_lt. cbn [vmap2 msg4_spec].
  rewrite !(add32_0_r (add32 _ _)) by apply add32_lt.
  assert (forall a b c d, add32 (add32 (add32 a c) (sigma0 b)) (sigma1 d) = nxt a b c d) as HN
    by (intros; unfold nxt; add32_solve).
  rewrite !HN. reflexivity.
Qed.

Lemma MSG4_ni_spec Y0 Y1 Y2 Y3 : MSG4_ni Y0 Y1 Y2 Y3 = msg4_spec Y0 Y1 Y2 Y3.
Proof.
  destruct Y0 as [x0 x1 x2 x3], Y1 as [x4 x5 x6 x7], Y2 as [x8 x9 x10 x11], Y3 as [x12 x13 x14 x15].
  unfold MSG4_ni, sha256msg1, mm_alignr_epi8_4, mm_add_epi32, sha256msg2.
  cbn [vmap2 msg4_spec].
  assert (forall a b c d, add32 (add32 (add32 a (sigma0 b)) c) (sigma1 d) = nxt a b c d) as HN
    by (intros; unfold nxt; add32_solve).
  rewrite !HN. reflexivity.
Qed.

Lemma MSG4_arm_spec Y0 Y1 Y2 Y3 : MSG4_arm Y0 Y1 Y2 Y3 = msg4_spec Y0 Y1 Y2 Y3.
Proof.
  destruct Y0 as [x0 x1 x2 x3], Y1 as [x4 x5 x6 x7], Y2 as [x8 x9 x10 x11], Y3 as [x12 x13 x14 x15].
  unfold MSG4_arm, vsha256su0q_u32, vsha256su1q_u32. cbn [msg4_spec].
  assert (forall a b c d, add32 (add32 (sigma1 d) (add32 (sigma0 b) a)) c = nxt a b c d) as HN
    by (intros; unfold nxt; add32_solve).
  rewrite !HN. reflexivity.
Qed.

(* ---------------- SSE2 transform ---------------- *)
Lemma vwords_length v : length (vwords v) = 4%nat.
Proof. destruct v; reflexivity. Qed.
Lemma quad_length Y0 Y1 Y2 Y3 : length (quad Y0 Y1 Y2 Y3) = 16%nat.
Proof. unfold quad. rewrite !app_length, !vwords_length. reflexivity. Qed.

Lemma vstore_tail (pre tl : list N) v o : o = length pre -> (4 <= length tl)%nat ->
  vstore32 (pre ++ tl) o v = Ok ((pre ++ vwords v) ++ skipn 4 tl).
Proof.
  intros -> Hl. unfold vstore32. rewrite wr_ok by (rewrite app_length, vwords_length; lia).
  f_equal. rewrite <- (firstn_skipn 4 tl) at 1.
  rewrite upd_app by (rewrite firstn_length, vwords_length; lia).
  rewrite app_assoc. reflexivity.
Qed.

Lemma msch16_sse2_spec pre tl Y0 Y1 Y2 Y3 i : 
  vwords_ok Y3 -> length (pre ++ quad Y0 Y1 Y2 Y3) = (16 + i)%nat -> (16 <= length tl)%nat ->
  exists Z0 Z1 Z2 Z3,
    msch16_sse2 ((pre ++ quad Y0 Y1 Y2 Y3) ++ tl) (Y0, Y1, Y2, Y3) i =
      Ok (((pre ++ quad Y0 Y1 Y2 Y3) ++ quad Z0 Z1 Z2 Z3) ++ skipn 16 tl, (Z0, Z1, Z2, Z3)) /\
    extend_W 16 (pre ++ quad Y0 Y1 Y2 Y3) = (pre ++ quad Y0 Y1 Y2 Y3) ++ quad Z0 Z1 Z2 Z3 /\
    vwords_ok Z3.
Proof.
  intros H3 Hlen Htl.
  exists (msg4_spec Y0 Y1 Y2 Y3).
  exists (msg4_spec Y1 Y2 Y3 (msg4_spec Y0 Y1 Y2 Y3)).
  exists (msg4_spec Y2 Y3 (msg4_spec Y0 Y1 Y2 Y3) (msg4_spec Y1 Y2 Y3 (msg4_spec Y0 Y1 Y2 Y3))).
  eexists. split; [|split].
  - unfold msch16_sse2.
    rewrite MSG4_sse2_spec by exact H3.
    rewrite vstore_tail by lia. cbn [bind].
    rewrite MSG4_sse2_spec by apply msg4_spec_ok.
    rewrite vstore_tail by (rewrite ?skipn_length, ?app_length, ?vwords_length in *; lia). cbn [bind].
    rewrite MSG4_sse2_spec by apply msg4_spec_ok.
    rewrite vstore_tail by (rewrite ?skipn_length, ?app_length, ?vwords_length in *; lia). cbn [bind].
    rewrite MSG4_sse2_spec by apply msg4_spec_ok.
    rewrite vstore_tail by (rewrite ?skipn_length, ?app_length, ?vwords_length in *; lia). cbn [bind].
    rewrite !skipn_skipn. unfold quad. rewrite <- !app_assoc. reflexivity.
  - rewrite <- app_assoc. apply extend_16.
  - apply msg4_spec_ok.
Qed.

Lemma sub_app_l {A} (a b : list A) o n : (o + n <= length a)%nat -> sub (a ++ b) o n = sub a o n.
Proof.
  intros H. rewrite <- (sub_firstn (a ++ b) o n (length a)) by exact H.
  rewrite firstn_app, Nat.sub_diag, firstn_O, app_nil_r, firstn_all. reflexivity.
Qed.

Theorem SHA256_Transform_sse2_correct state block W :
  length state = 8%nat -> length block = 64%nat -> bytes_ok block -> length W = 64%nat ->
  SHA256_Transform_sse2 state block W = Ok (compress state block).
Proof.
  intros Hs Hb Hok HW. unfold SHA256_Transform_sse2.
  destruct (bswap_spec block 0 ltac:(lia) Hok) as (b0 & -> & E0). cbn [bind].
  change W with ([] ++ W). rewrite vstore_tail by (simpl; lia). cbn [bind].
  destruct (bswap_spec block 16 ltac:(lia) Hok) as (b1 & -> & E1). cbn [bind].
  rewrite vstore_tail by (rewrite ?skipn_length, ?app_length, ?vwords_length; simpl; lia). cbn [bind].
  destruct (bswap_spec block 32 ltac:(lia) Hok) as (b2 & -> & E2). cbn [bind].
  rewrite vstore_tail by (rewrite ?skipn_length, ?app_length, ?vwords_length; simpl; lia). cbn [bind].
  destruct (bswap_spec block 48 ltac:(lia) Hok) as (b3 & -> & E3). cbn [bind].
  rewrite vstore_tail by (rewrite ?skipn_length, ?app_length, ?vwords_length; simpl; lia). cbn [bind].
  rewrite E0, E1, E2, E3, !skipn_skipn. simpl plus.
  rewrite app_nil_l, <- !app_assoc.
  rewrite !app_assoc, <- (app_assoc (vwords (load_be block 0))), <- (app_assoc (vwords (load_be block 0))).
  rewrite <- (app_assoc (vwords (load_be block 16))).
  fold (quad (load_be block 0) (load_be block 16) (load_be block 32) (load_be block 48)).
  rewrite rd_ok by lia. cbn [bind]. rewrite sub_0_all by lia.
  unfold compress, schedule. rewrite schedule_quad by exact Hb.
  pose proof (load_be_ok block 48 Hok) as V3.
  set (Y0 := load_be block 0) in *. set (Y1 := load_be block 16) in *.
  set (Y2 := load_be block 32) in *. set (Y3 := load_be block 48) in *.
  set (Q := quad Y0 Y1 Y2 Y3).
  assert (length Q = 16%nat) as LQ by apply quad_length.
  set (tl := skipn 16 W). assert (length tl = 48%nat) as Ltl by (unfold tl; rewrite skipn_length; lia).
  destruct (rnd16_spec state (Q ++ tl) 0 Hs) as [R0 L0]; [rewrite app_length; lia|lia|].
  destruct (msch16_sse2_spec [] tl Y0 Y1 Y2 Y3 0 V3 ltac:(rewrite app_nil_l, quad_length; reflexivity) ltac:(lia))
    as (Z0 & Z1 & Z2 & Z3 & M1 & X1 & VZ3).
  rewrite app_nil_l in M1, X1. fold Q in M1, X1. rewrite M1. cbn [bind]. clear M1.
  set (Q1 := quad Z0 Z1 Z2 Z3) in *. assert (length Q1 = 16%nat) as LQ1 by apply quad_length.
  set (S1 := rnd16 state (Q ++ tl) 0) in *.
  destruct (rnd16_spec S1 ((Q ++ Q1) ++ skipn 16 tl) 16 L0) as [R1 L1];
    [rewrite !app_length; lia|lia|].
  destruct (msch16_sse2_spec Q (skipn 16 tl) Z0 Z1 Z2 Z3 16 VZ3
     ltac:(rewrite app_length, quad_length; lia) ltac:(rewrite skipn_length; lia))
    as (T0 & T1 & T2 & T3 & M2 & X2 & VT3).
  fold Q1 in M2, X2. rewrite M2. cbn [bind]. clear M2.
  set (Q2 := quad T0 T1 T2 T3) in *. assert (length Q2 = 16%nat) as LQ2 by apply quad_length.
  rewrite skipn_skipn. simpl plus.
  set (S2 := rnd16 S1 ((Q ++ Q1) ++ skipn 16 tl) 16) in *.
  destruct (rnd16_spec S2 (((Q ++ Q1) ++ Q2) ++ skipn 32 tl) 32 L1) as [R2 L2];
    [rewrite !app_length; lia|lia|].
  destruct (msch16_sse2_spec (Q ++ Q1) (skipn 32 tl) T0 T1 T2 T3 32 VT3
     ltac:(rewrite !app_length, quad_length; lia) ltac:(rewrite skipn_length; lia))
    as (U0 & U1 & U2 & U3 & M3 & X3 & VU3).
  fold Q2 in M3, X3. rewrite M3. cbn [bind]. clear M3.
  set (Q3 := quad U0 U1 U2 U3) in *. assert (length Q3 = 16%nat) as LQ3 by apply quad_length.
  set (S3 := rnd16 S2 (((Q ++ Q1) ++ Q2) ++ skipn 32 tl) 32) in *.
  rewrite skipn_skipn. simpl plus. rewrite (skipn_all2 tl) by lia. rewrite app_nil_r.
  destruct (rnd16_spec S3 (((Q ++ Q1) ++ Q2) ++ Q3) 48 L2) as [R3 L3];
    [rewrite !app_length; lia|lia|].
  f_equal. rewrite add_state_map2 by auto. f_equal.
  change 48%nat with (16 + (16 + 16))%nat at 2. rewrite !extend_W_add, X1, X2, X3.
  set (WW := ((Q ++ Q1) ++ Q2) ++ Q3) in *.
  assert (length WW = 64%nat) as LWW by (unfold WW; rewrite !app_length; lia).
  rewrite rounds64_split by exact LWW.
  rewrite R3, R2, R1, R0.
  repeat match goal with |- rounds256 _ _ _ = rounds256 _ _ _ => f_equal end.
  all: unfold WW; first
    [ rewrite <- !app_assoc; rewrite !(sub_app_l Q) by lia; reflexivity
    | rewrite <- (app_assoc (Q ++ Q1)); rewrite !(sub_app_l (Q ++ Q1)) by (rewrite !app_length; lia); reflexivity
    | rewrite !(sub_app_l ((Q ++ Q1) ++ Q2)) by (rewrite !app_length; lia); reflexivity ].
Qed.

(* ---------------- SHA-NI transform ---------------- *)
(** The 8 working variables held in two registers {A,B,E,F}, {C,D,G,H}. *)
Definition un_ni (S0 S1 : v4) : list N :=
  match S0, S1 with V4 F E B A, V4 H G D C => [A; B; C; D; E; F; G; H] end.

Lemma round256_wk s k w : round256 s (add32 w k) 0 = round256 s k w.
Proof.
  unfold round256. do 8 (destruct s as [|? s]; [reflexivity|]). destruct s; [|reflexivity].
  assert (forall x, add32 (add32 x (add32 w k)) 0 = add32 (add32 x k) w) as H
    by (intros; add32_solve).
  rewrite !H. reflexivity.
Qed.

Lemma rnds2_spec S0 S1 k0 k1 a b :
  let R := sha256rnds2 S1 S0 (V4 k0 k1 a b) in
  un_ni R S0 = round256 (round256 (un_ni S0 S1) k0 0) k1 0.
Proof.
  destruct S0 as [F E B A], S1 as [H G D C]. cbn [un_ni sha256rnds2 round256]. reflexivity.
Qed.

Lemma rounds4_ni S0 S1 W k0 k1 k2 k3 ks ws :
  rounds256 (un_ni S0 S1) (k0 :: k1 :: k2 :: k3 :: ks) (vwords W ++ ws) =
  rounds256 (un_ni (fst (RND4_ni S0 S1 W k0 k1 k2 k3)) (snd (RND4_ni S0 S1 W k0 k1 k2 k3))) ks ws.
Proof.
  destruct W as [w0 w1 w2 w3]. unfold RND4_ni.
  cbn [vwords app rounds256 mm_add_epi32 vmap2 mm_srli_si128_8 fst snd]. unfold mm_add_epi32. cbn [vmap2].
  set (R1 := sha256rnds2 S1 S0 _).
  cbn [mm_srli_si128_8].
  rewrite rnds2_spec. unfold R1. rewrite rnds2_spec. rewrite !round256_wk. reflexivity.
Qed.

Lemma un_ni_add S0 S1 T0 T1 :
  un_ni (mm_add_epi32 S0 T0) (mm_add_epi32 S1 T1) = map2 add32 (un_ni S0 S1) (un_ni T0 T1).
Proof. destruct S0, S1, T0, T1. reflexivity. Qed.

Lemma vload32_8 state : length state = 8%nat ->
  exists a b c d e f g h, state = [a; b; c; d; e; f; g; h] /\
   vload32 state 0 = Ok (V4 a b c d) /\ vload32 state 4 = Ok (V4 e f g h).
Proof.
  intros Hs. destruct state as [|a [|b [|c [|d [|e [|f [|g [|h [|]]]]]]]]]; try discriminate.
  exists a, b, c, d, e, f, g, h. repeat split.
Qed.

Lemma shani_rounds_spec S0 S1 Y0 Y1 Y2 Y3 :
  let '(T0, T1, _) := shani_rounds (S0, S1, [Y0; Y1; Y2; Y3]) in
  un_ni T0 T1 = rounds256 (un_ni S0 S1) K256 (extend_W 48 (quad Y0 Y1 Y2 Y3)).
Proof.
  change 48%nat with (16 + (16 + 16))%nat. rewrite !extend_W_add.
  rewrite <- (app_nil_l (quad Y0 Y1 Y2 Y3)), extend_16, app_nil_l.
  set (Z0 := msg4_spec Y0 Y1 Y2 Y3). set (Z1 := msg4_spec Y1 Y2 Y3 Z0).
  set (Z2 := msg4_spec Y2 Y3 Z0 Z1). set (Z3 := msg4_spec Y3 Z0 Z1 Z2).
  rewrite extend_16.
  set (T0 := msg4_spec Z0 Z1 Z2 Z3). set (T1 := msg4_spec Z1 Z2 Z3 T0).
  set (T2 := msg4_spec Z2 Z3 T0 T1). set (T3 := msg4_spec Z3 T0 T1 T2).
  rewrite app_assoc, extend_16.
  set (U0 := msg4_spec T0 T1 T2 T3). set (U1 := msg4_spec T1 T2 T3 U0).
  set (U2 := msg4_spec T2 T3 U0 U1). set (U3 := msg4_spec T3 U0 U1 U2).
  rewrite <- Krnd_spec. unfold Krnd, quad. rewrite <- !app_assoc.
  rewrite <- (app_nil_r (vwords U3)).
  unfold shani_rounds. cbv zeta.
  Ltac shani_step :=
    rewrite rounds4_ni;
    match goal with |- context [RNDMSG_ni (?a, ?b, ?W) ?i ?k0 ?k1 ?k2 ?k3] =>
      let t := eval cbn [RNDMSG_ni Nat.modulo Nat.divmod Nat.sub fst snd nth Nat.ltb Nat.leb Nat.add set_nth]
        in (RNDMSG_ni (a, b, W) i k0 k1 k2 k3) in
      change (RNDMSG_ni (a, b, W) i k0 k1 k2 k3) with t;
      match t with context [RND4_ni a b ?w k0 k1 k2 k3] =>
        destruct (RND4_ni a b w k0 k1 k2 k3) as [? ?]; cbn [fst snd] end;
      rewrite ?MSG4_ni_spec
    end.
  do 4 shani_step. fold Z0. fold Z1. fold Z2. fold Z3.
  do 4 shani_step. fold T0. fold T1. fold T2. fold T3.
  do 4 shani_step. fold U0. fold U1. fold U2. fold U3.
  do 4 shani_step. cbn [rounds256].
  reflexivity.
Qed.

Theorem SHA256_Transform_shani_correct state block :
  length state = 8%nat -> length block = 64%nat -> bytes_ok block ->
  SHA256_Transform_shani state block = Ok (compress state block).
Proof.
  intros Hs Hb Hok. unfold SHA256_Transform_shani.
  destruct (vload32_8 state Hs) as (a & b & c & d & e & f & g & h & Es & L1 & L2).
  rewrite L1, L2. cbn [bind].
  rewrite !be32dec_128_spec by (auto; lia). cbn [bind].
  change (mm_shuffle_epi32 (V4 a b c d) 0x1B) with (V4 d c b a).
  change (mm_shuffle_epi32 (V4 e f g h) 0x1B) with (V4 h g f e).
  cbn [mm_unpackhi_epi64 mm_unpacklo_epi64].
  pose proof (shani_rounds_spec (V4 f e b a) (V4 h g d c)
    (load_be block 0) (load_be block 16) (load_be block 32) (load_be block 48)) as HR.
  destruct (shani_rounds _) as [[T0 T1] WW].
  unfold compress, schedule. rewrite schedule_quad by exact Hb.
  cbn [un_ni] in HR. rewrite <- Es in HR. rewrite <- HR. rewrite Es.
  destruct T0 as [t0 t1 t2 t3], T1 as [u0 u1 u2 u3].
  reflexivity.
Qed.

(* ---------------- ARM transform ---------------- *)
Definition un_arm (S : v4 * v4) : list N := vwords (fst S) ++ vwords (snd S).

Lemma arm_step_spec X Y k w :
  un_arm (arm_step X Y (add32 w k)) = round256 (un_arm (X, Y)) k w.
Proof.
  destruct X as [a b c d], Y as [e f g h]. unfold un_arm. cbn [fst snd vwords app arm_step].
  cbn [round256].
  repeat first [reflexivity | apply (f_equal2 cons)]; add32_solve.
Qed.

Lemma rounds4_arm S W k0 k1 k2 k3 ks ws :
  rounds256 (un_arm S) (k0 :: k1 :: k2 :: k3 :: ks) (vwords W ++ ws) =
  rounds256 (un_arm (RND4_arm S W (V4 k0 k1 k2 k3))) ks ws.
Proof.
  destruct W as [w0 w1 w2 w3], S as [X Y]. unfold RND4_arm, vsha256hq_u32, vsha256h2q_u32.
  rewrite <- surjective_pairing. unfold mm_add_epi32. cbn [vmap2 arm_hash vwords app rounds256].
  rewrite <- (arm_step_spec X Y). destruct (arm_step X Y (add32 w0 k0)) as [X1 Y1].
  rewrite <- (arm_step_spec X1 Y1). destruct (arm_step X1 Y1 (add32 w1 k1)) as [X2 Y2].
  rewrite <- (arm_step_spec X2 Y2). destruct (arm_step X2 Y2 (add32 w2 k2)) as [X3 Y3].
  rewrite <- (arm_step_spec X3 Y3). reflexivity.
Qed.

Theorem SHA256_Transform_arm_correct state block :
  length state = 8%nat -> length block = 64%nat -> bytes_ok block ->
  SHA256_Transform_arm state block = Ok (compress state block).
Proof.
  intros Hs Hb Hok. unfold SHA256_Transform_arm.
  destruct (vrev_spec block 0 ltac:(lia) Hok) as (b0 & -> & E0). cbn [bind].
  destruct (vrev_spec block 16 ltac:(lia) Hok) as (b1 & -> & E1). cbn [bind].
  destruct (vrev_spec block 32 ltac:(lia) Hok) as (b2 & -> & E2). cbn [bind].
  destruct (vrev_spec block 48 ltac:(lia) Hok) as (b3 & -> & E3). cbn [bind].
  rewrite E0, E1, E2, E3.
  destruct (vload32_8 state Hs) as (a & b & c & d & e & f & g & h & Es & L1 & L2).
  rewrite L1, L2. cbn [bind].
  unfold compress, schedule. rewrite schedule_quad by exact Hb.
  set (Y0 := load_be block 0). set (Y1 := load_be block 16).
  set (Y2 := load_be block 32). set (Y3 := load_be block 48).
  change 48%nat with (16 + (16 + 16))%nat at 2. rewrite !extend_W_add.
  rewrite <- (app_nil_l (quad Y0 Y1 Y2 Y3)), extend_16, app_nil_l.
  unfold msg16_arm. rewrite !MSG4_arm_spec.
  set (Z0 := msg4_spec Y0 Y1 Y2 Y3). set (Z1 := msg4_spec Y1 Y2 Y3 Z0).
  set (Z2 := msg4_spec Y2 Y3 Z0 Z1). set (Z3 := msg4_spec Y3 Z0 Z1 Z2).
  rewrite extend_16.
  set (T0 := msg4_spec Z0 Z1 Z2 Z3). set (T1 := msg4_spec Z1 Z2 Z3 T0).
  set (T2 := msg4_spec Z2 Z3 T0 T1). set (T3 := msg4_spec Z3 T0 T1 T2).
  rewrite app_assoc, extend_16.
  set (U0 := msg4_spec T0 T1 T2 T3). set (U1 := msg4_spec T1 T2 T3 U0).
  set (U2 := msg4_spec T2 T3 U0 U1). set (U3 := msg4_spec T3 U0 U1 U2).
  rewrite <- Krnd_spec. unfold quad. rewrite <- !app_assoc.
  rewrite <- (app_nil_r (vwords U3)).
  replace state with (un_arm (V4 a b c d, V4 e f g h)) at 2 by (rewrite Es; reflexivity).
  unfold Krnd.
  rewrite !rounds4_arm. cbn [rounds256].
  unfold rnd16_arm.
  repeat match goal with |- context [vload32 Krnd ?i] =>
    let v := eval vm_compute in (vload32 Krnd i) in change (vload32 Krnd i) with v end.
  cbn [bind].
  set (FS := RND4_arm _ U3 _). destruct FS as [F0 F1].
  rewrite Es. destruct F0, F1. reflexivity.
Qed.
