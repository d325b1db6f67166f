(** Models of the hardware-assisted SHA-256 block transforms:
    libcperciva/alg/sha256_sse2.c, sha256_shani.c, sha256_arm.c. *)
From Verif Require Import Base SpecBytes SpecSHA M_endian M_sha256_tr M_simd.

(* ------------------------------ SSE2 ---------------------------------- *)
(* sha256_sse2.c:19-31 mm_bswap_epi32 *)
Definition mm_bswap_epi32 (a : v4) : v4 :=
  let a := mm_or (mm_slli_epi16 a 8) (mm_srli_epi16 a 8) in
  let a := mm_shufflelo_epi16 a (MM_SHUFFLE 2 3 0 1) in
  mm_shufflehi_epi16 a (MM_SHUFFLE 2 3 0 1).
(* sha256_sse2.c:34-72: Krnd, Ch, Maj, ROTR, S0, S1, RND, RNDr are textually
   those of sha256.c (M_sha256_tr). *)
(* sha256_sse2.c:75-78 *)
Definition ROTR32 (x : v4) (n : N) : v4 := mm_or (mm_srli_epi32 x n) (mm_slli_epi32 x (32 - n)).
(* sha256_sse2.c:77-78 *)
Definition s0_128 (x : v4) : v4 :=
  mm_xor (mm_xor (ROTR32 x 7) (ROTR32 x 18)) (mm_srli_epi32 x 3).
(* sha256_sse2.c:80-98 s1_128_high *)
Definition s1_128_high (a : v4) : v4 :=
  let b := mm_shuffle_epi32 a (MM_SHUFFLE 1 1 0 0) in
  let c := mm_xor (mm_srli_epi64 b 17) (mm_srli_epi64 b 19) in
  let c := mm_xor c (mm_srli_epi32 b 10) in
  let c := mm_shuffle_epi32 c (MM_SHUFFLE 2 0 2 0) in
  mm_slli_si128_8 c.
(* sha256_sse2.c:100-118 s1_128_low *)
Definition s1_128_low (a : v4) : v4 :=
  let b := mm_shuffle_epi32 a (MM_SHUFFLE 3 3 2 2) in
  let c := mm_xor (mm_srli_epi64 b 17) (mm_srli_epi64 b 19) in
  let c := mm_xor c (mm_srli_epi32 b 10) in
  let c := mm_shuffle_epi32 c (MM_SHUFFLE 2 0 2 0) in
  mm_srli_si128_8 c.
(* sha256_sse2.c:130-132 SPAN_ONE_THREE *)
Definition SPAN_ONE_THREE (a b : v4) : v4 :=
  mm_shuffle_epi32 (mm_move_ss a b) (MM_SHUFFLE 0 3 2 1).
(* sha256_sse2.c:146-167 MSG4 *)
Definition MSG4_sse2 (X0 X1 X2 X3 : v4) : v4 :=
  let Xj_minus_seven := SPAN_ONE_THREE X2 X3 in
  let Xj_minus_fifteen := SPAN_ONE_THREE X0 X1 in
  let X4 := mm_add_epi32 X0 Xj_minus_seven in
  let X4 := mm_add_epi32 X4 (s0_128 Xj_minus_fifteen) in
  let X4 := mm_add_epi32 X4 (s1_128_low X3) in
  mm_add_epi32 X4 (s1_128_high X4).
(* sha256_sse2.c:225-232: extend the schedule by 16 words at W[16+i ..] *)
Definition msch16_sse2 (W : list N) (Y : v4 * v4 * v4 * v4) (i : nat)
  : res (list N * (v4 * v4 * v4 * v4)) :=
  let '(Y0, Y1, Y2, Y3) := Y in
  let Y0 := MSG4_sse2 Y0 Y1 Y2 Y3 in
  W <- vstore32 W (16 + i + 0) Y0 ;;
  let Y1 := MSG4_sse2 Y1 Y2 Y3 Y0 in
  W <- vstore32 W (16 + i + 4) Y1 ;;
  let Y2 := MSG4_sse2 Y2 Y3 Y0 Y1 in
  W <- vstore32 W (16 + i + 8) Y2 ;;
  let Y3 := MSG4_sse2 Y3 Y0 Y1 Y2 in
  W <- vstore32 W (16 + i + 12) Y3 ;;
  Ok (W, (Y0, Y1, Y2, Y3)).
(* sha256_sse2.c:182-238 SHA256_Transform_sse2 *)
Definition SHA256_Transform_sse2 (state : list N) (block : bytes) (W : list N)
  : res (list N) :=
  b0 <- vload8 block 0 ;;
  let Y0 := mm_bswap_epi32 b0 in
  W <- vstore32 W 0 Y0 ;;
  b1 <- vload8 block 16 ;;
  let Y1 := mm_bswap_epi32 b1 in
  W <- vstore32 W 4 Y1 ;;
  b2 <- vload8 block 32 ;;
  let Y2 := mm_bswap_epi32 b2 in
  W <- vstore32 W 8 Y2 ;;
  b3 <- vload8 block 48 ;;
  let Y3 := mm_bswap_epi32 b3 in
  W <- vstore32 W 12 Y3 ;;
  s <- rd state 0 8 ;;
  let S := rnd16 s W 0 in
  ' (W, Y) <- msch16_sse2 W (Y0, Y1, Y2, Y3) 0 ;;
  let S := rnd16 S W 16 in
  ' (W, Y) <- msch16_sse2 W Y 16 ;;
  let S := rnd16 S W 32 in
  ' (W, Y) <- msch16_sse2 W Y 32 ;;
  let S := rnd16 S W 48 in
  Ok (add_state state S).

(* ------------------------------ SHA-NI -------------------------------- *)
(** Intel SDM: SHA256RNDS2, SHA256MSG1, SHA256MSG2 (CPU model, trusted).
    rnds2 a b k: a = {C,D,G,H}, b = {A,B,E,F} from high to low lane; performs
    two rounds with the round-key words k[0], k[1]; result {A,B,E,F}. *)
Definition sha256rnds2 (a b k : v4) : v4 :=
  match a, b, k with
  | V4 H G D C, V4 F E B A, V4 k0 k1 _ _ =>
      match round256 (round256 [A; B; C; D; E; F; G; H] k0 0) k1 0 with
      | [A2; B2; _; _; E2; F2; _; _] => V4 F2 E2 B2 A2
      | _ => V4 0 0 0 0
      end
  end.
(* _mm_sha256msg1_epu32 (Intel SDM) *)
Definition sha256msg1 (a b : v4) : v4 :=
  match a, b with V4 w0 w1 w2 w3, V4 w4 _ _ _ =>
    V4 (add32 w0 (sigma0 w1)) (add32 w1 (sigma0 w2))
       (add32 w2 (sigma0 w3)) (add32 w3 (sigma0 w4)) end.
(* _mm_sha256msg2_epu32 (Intel SDM) *)
Definition sha256msg2 (a b : v4) : v4 :=
  match a, b with V4 a0 a1 a2 a3, V4 _ _ w14 w15 =>
    let w16 := add32 a0 (sigma1 w14) in
    let w17 := add32 a1 (sigma1 w15) in
    let w18 := add32 a2 (sigma1 w16) in
    let w19 := add32 a3 (sigma1 w17) in V4 w16 w17 w18 w19 end.

(* sha256_shani.c:25-37 be32dec_128; _mm_set_epi8 lists bytes from high to low *)
Definition shuf_be32 : list nat := [3; 2; 1; 0; 7; 6; 5; 4; 11; 10; 9; 8; 15; 14; 13; 12]%nat.
(* sha256_shani.c:25-37 be32dec_128 *)
Definition be32dec_128 (src : bytes) (o : nat) : res v4 :=
  x <- vload8 src o ;; Ok (mm_shuffle_epi8 x shuf_be32).
(* sha256_shani.c:47-59 RND4; I32/IMM4 (39-44) only reinterpret the constants *)
Definition RND4_ni (S0 S1 W : v4) (K0 K1 K2 K3 : N) : v4 * v4 :=
  let M := mm_add_epi32 W (V4 K0 K1 K2 K3) in
  let S1 := sha256rnds2 S1 S0 M in
  let M := mm_srli_si128_8 M in
  let S0 := sha256rnds2 S0 S1 M in (S0, S1).
(* sha256_shani.c:62-67 MSG4 on the four rotating registers (i+0..i+3 mod 4) *)
Definition MSG4_ni (W0 W1 W2 W3 : v4) : v4 :=
  let X := sha256msg1 W0 W1 in
  let X := mm_add_epi32 X (mm_alignr_epi8_4 W3 W2) in
  sha256msg2 X W3.
(* sha256_shani.c:70-74 RNDMSG(S, W, i, ...): RND4 with W[i%4], then, if
   i < 12, MSG4(W, i+4), which rewrites W[i%4].  W is the array of four. *)
Definition RNDMSG_ni (st : v4 * v4 * list v4) (i : nat) (K0 K1 K2 K3 : N)
  : v4 * v4 * list v4 :=
  let '(S0, S1, W) := st in
  let d := V4 0 0 0 0 in
  let '(S0, S1) := RND4_ni S0 S1 (nth (i mod 4) W d) K0 K1 K2 K3 in
  if Nat.ltb i 12 then
    let j := (i + 4)%nat in
    (S0, S1, set_nth W ((j + 0) mod 4)
       (MSG4_ni (nth ((j + 0) mod 4) W d) (nth ((j + 1) mod 4) W d)
                (nth ((j + 2) mod 4) W d) (nth ((j + 3) mod 4) W d)))
  else (S0, S1, W).
(* sha256_shani.c:114-129: the sixteen invocations with their immediates *)
Definition shani_rounds (st : v4 * v4 * list v4) : v4 * v4 * list v4 :=
  let st := RNDMSG_ni st 0 0x428a2f98 0x71374491 0xb5c0fbcf 0xe9b5dba5 in
  let st := RNDMSG_ni st 1 0x3956c25b 0x59f111f1 0x923f82a4 0xab1c5ed5 in
  let st := RNDMSG_ni st 2 0xd807aa98 0x12835b01 0x243185be 0x550c7dc3 in
  let st := RNDMSG_ni st 3 0x72be5d74 0x80deb1fe 0x9bdc06a7 0xc19bf174 in
  let st := RNDMSG_ni st 4 0xe49b69c1 0xefbe4786 0x0fc19dc6 0x240ca1cc in
  let st := RNDMSG_ni st 5 0x2de92c6f 0x4a7484aa 0x5cb0a9dc 0x76f988da in
  let st := RNDMSG_ni st 6 0x983e5152 0xa831c66d 0xb00327c8 0xbf597fc7 in
  let st := RNDMSG_ni st 7 0xc6e00bf3 0xd5a79147 0x06ca6351 0x14292967 in
  let st := RNDMSG_ni st 8 0x27b70a85 0x2e1b2138 0x4d2c6dfc 0x53380d13 in
  let st := RNDMSG_ni st 9 0x650a7354 0x766a0abb 0x81c2c92e 0x92722c85 in
  let st := RNDMSG_ni st 10 0xa2bfe8a1 0xa81a664b 0xc24b8b70 0xc76c51a3 in
  let st := RNDMSG_ni st 11 0xd192e819 0xd6990624 0xf40e3585 0x106aa070 in
  let st := RNDMSG_ni st 12 0x19a4c116 0x1e376c08 0x2748774c 0x34b0bcb5 in
  let st := RNDMSG_ni st 13 0x391c0cb3 0x4ed8aa4a 0x5b9cca4f 0x682e6ff3 in
  let st := RNDMSG_ni st 14 0x748f82ee 0x78a5636f 0x84c87814 0x8cc70208 in
  RNDMSG_ni st 15 0x90befffa 0xa4506ceb 0xbef9a3f7 0xc67178f2.
(* sha256_shani.c:83-142 SHA256_Transform_shani *)
Definition SHA256_Transform_shani (state : list N) (block : bytes) : res (list N) :=
  S3210 <- vload32 state 0 ;;
  S7654 <- vload32 state 4 ;;
  let S0123 := mm_shuffle_epi32 S3210 0x1B in
  let S4567 := mm_shuffle_epi32 S7654 0x1B in
  let S0145 := mm_unpackhi_epi64 S4567 S0123 in
  let S2367 := mm_unpacklo_epi64 S4567 S0123 in
  W0 <- be32dec_128 block 0 ;;
  W1 <- be32dec_128 block 16 ;;
  W2 <- be32dec_128 block 32 ;;
  W3 <- be32dec_128 block 48 ;;
  let '(S0, S1, _) := shani_rounds (S0145, S2367, [W0; W1; W2; W3]) in
  let S0145 := mm_add_epi32 S0145 S0 in
  let S2367 := mm_add_epi32 S2367 S1 in
  let S0123 := mm_unpackhi_epi64 S2367 S0145 in
  let S4567 := mm_unpacklo_epi64 S2367 S0145 in
  let S3210 := mm_shuffle_epi32 S0123 0x1B in
  let S7654 := mm_shuffle_epi32 S4567 0x1B in
  state <- vstore32 state 0 S3210 ;;
  vstore32 state 4 S7654.

(* ------------------------------ ARM ----------------------------------- *)
(** Arm ARM, SHA256hash(X, Y, W, part1) pseudo-code (CPU model, trusted):
    one step on X = abcd, Y = efgh (lane 0 = a, resp. e). *)
Definition arm_step (X Y : v4) (w : N) : v4 * v4 :=
  match X, Y with
  | V4 x0 x1 x2 x3, V4 y0 y1 y2 y3 =>
      let t := add32 (add32 (add32 y3 (Sigma1 y0)) (Ch y0 y1 y2)) w in
      let x3' := add32 t x3 in
      let y3' := add32 (add32 t (Sigma0 x0)) (Maj x0 x1 x2) in
      (V4 y3' x0 x1 x2, V4 x3' y0 y1 y2)
  end.
(* SHA256hash of the Arm ARM: four rounds *)
Definition arm_hash (X Y W : v4) : v4 * v4 :=
  match W with V4 w0 w1 w2 w3 =>
    let '(X, Y) := arm_step X Y w0 in
    let '(X, Y) := arm_step X Y w1 in
    let '(X, Y) := arm_step X Y w2 in
    arm_step X Y w3 end.
(* SHA256H (Arm ARM) *)
Definition vsha256hq_u32 (abcd efgh wk : v4) : v4 := fst (arm_hash abcd efgh wk).
(* SHA256H2 (Arm ARM) *)
Definition vsha256h2q_u32 (efgh abcd wk : v4) : v4 := snd (arm_hash abcd efgh wk).
(* SHA256SU0 (Arm ARM) *)
Definition vsha256su0q_u32 (w0_3 w4_7 : v4) : v4 :=
  match w0_3, w4_7 with V4 w0 w1 w2 w3, V4 w4 _ _ _ =>
    V4 (add32 (sigma0 w1) w0) (add32 (sigma0 w2) w1)
       (add32 (sigma0 w3) w2) (add32 (sigma0 w4) w3) end.
(* SHA256SU1 (Arm ARM) *)
Definition vsha256su1q_u32 (tw w8_11 w12_15 : v4) : v4 :=
  match tw, w8_11, w12_15 with
  | V4 t0 t1 t2 t3, V4 _ w9 w10 w11, V4 w12 _ w14 w15 =>
      let r0 := add32 (add32 (sigma1 w14) t0) w9 in
      let r1 := add32 (add32 (sigma1 w15) t1) w10 in
      let r2 := add32 (add32 (sigma1 r0) t2) w11 in
      let r3 := add32 (add32 (sigma1 r1) t3) w12 in V4 r0 r1 r2 r3
  end.
(* REV32 on bytes (Arm ARM) *)
Definition vrev32q_u8 (a : v4) : v4 := vmap (fun x => be_val (le_bytes 4 x)) a.

(* sha256_arm.c:38-45 RND4 *)
Definition RND4_arm (S : v4 * v4) (M Kp : v4) : v4 * v4 :=
  let '(S0, S1) := S in
  let S0_step := S0 in
  let Wk := mm_add_epi32 M Kp in
  let S0 := vsha256hq_u32 S0 S1 Wk in
  let S1 := vsha256h2q_u32 S1 S0_step Wk in (S0, S1).
(* sha256_arm.c:48-49 MSG4 *)
Definition MSG4_arm (X0 X1 X2 X3 : v4) : v4 :=
  vsha256su1q_u32 (vsha256su0q_u32 X0 X1) X2 X3.
(* sha256_arm.c:84-87 *)
Definition rnd16_arm (S : v4 * v4) (Y : v4 * v4 * v4 * v4) (i : nat) : res (v4 * v4) :=
  let '(Y0, Y1, Y2, Y3) := Y in
  k <- vload32 Krnd (i + 0) ;; let S := RND4_arm S Y0 k in
  k <- vload32 Krnd (i + 4) ;; let S := RND4_arm S Y1 k in
  k <- vload32 Krnd (i + 8) ;; let S := RND4_arm S Y2 k in
  k <- vload32 Krnd (i + 12) ;; Ok (RND4_arm S Y3 k).
(* sha256_arm.c:91-94 *)
Definition msg16_arm (Y : v4 * v4 * v4 * v4) : v4 * v4 * v4 * v4 :=
  let '(Y0, Y1, Y2, Y3) := Y in
  let Y0 := MSG4_arm Y0 Y1 Y2 Y3 in
  let Y1 := MSG4_arm Y1 Y2 Y3 Y0 in
  let Y2 := MSG4_arm Y2 Y3 Y0 Y1 in
  let Y3 := MSG4_arm Y3 Y0 Y1 Y2 in (Y0, Y1, Y2, Y3).
(* sha256_arm.c:62-100 SHA256_Transform_arm *)
Definition SHA256_Transform_arm (state : list N) (block : bytes) : res (list N) :=
  b0 <- vload8 block 0 ;;
  b1 <- vload8 block 16 ;;
  b2 <- vload8 block 32 ;;
  b3 <- vload8 block 48 ;;
  let Y := (vrev32q_u8 b0, vrev32q_u8 b1, vrev32q_u8 b2, vrev32q_u8 b3) in
  state0 <- vload32 state 0 ;;
  state1 <- vload32 state 4 ;;
  S <- rnd16_arm (state0, state1) Y 0 ;;
  let Y := msg16_arm Y in
  S <- rnd16_arm S Y 16 ;;
  let Y := msg16_arm Y in
  S <- rnd16_arm S Y 32 ;;
  let Y := msg16_arm Y in
  ' (S0, S1) <- rnd16_arm S Y 48 ;;
  state <- vstore32 state 0 (mm_add_epi32 state0 S0) ;;
  vstore32 state 4 (mm_add_epi32 state1 S1).
