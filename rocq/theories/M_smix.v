(** Model of lib/crypto/crypto_scrypt_smix.c, lib/crypto/crypto_scrypt_smix_sse2.c,
    lib/crypto/crypto_scrypt-ref.c and lib-platform/crypto/crypto_scrypt.c.

    Arrays of uint32_t / __m128i are lists of 32-bit words (an __m128i is four
    consecutive words, lane 0 first).  The scratch area XY is split once into
    its three consecutive parts X (128r bytes), Y (128r bytes), Z (64 bytes);
    every access is checked against the part it goes to, which is stronger
    than checking it against XY.  Index arithmetic inside smix is exact: all
    indices are below the sizes of the allocations, which
    crypto_scrypt_internal computes (with explicit wrap-around, [wsz]). *)
From Verif Require Import Base M_endian M_sha256_tr M_simd M_sha256_hw M_sha256.

(* crypto_scrypt_smix.c:42-47 blkcpy (memcpy), crypto_scrypt_smix_sse2.c:45-53
   blkcpy; [len] in bytes, offsets in words *)
Definition blkcpy (dest : list N) (d : nat) (src : list N) (s : nat) (len : nat) : res (list N) :=
  l <- rd src s (len / 4) ;; wr dest d l.
(* crypto_scrypt_smix.c:49-56, crypto_scrypt_smix_sse2.c:55-63 blkxor; the
   element-wise loops dest[i] ^= src[i] (resp. _mm_xor_si128) are xorl *)
Definition blkxor (dest : list N) (d : nat) (src : list N) (s : nat) (len : nat) : res (list N) :=
  l <- rd src s (len / 4) ;; m <- rd dest d (len / 4) ;; wr dest d (xorl m l).

(* ---------------- crypto_scrypt_smix.c ---------------------------------- *)
(* crypto_scrypt_smix.c:70: #define R(a,b) (((a) << (b)) | ((a) >> (32 - (b)))) *)
Definition R_ (a b : N) : N := N.lor (w32 (N.shiftl a b)) (N.shiftr a (32 - b)).
(* one statement x[a] ^= R(x[b]+x[c], n); *)
Definition xr (x : list N) (a b c : nat) (n : N) : list N :=
  set_nth x a (N.lxor (sel x a) (R_ (add32 (sel x b) (sel x c)) n)).
(* crypto_scrypt_smix.c:71-94 (and crypto_scrypt-ref.c:85-108): the loop body *)
Definition salsa_body (x : list N) : list N :=
  (* columns *)
  let x := xr x 4 0 12 7 in let x := xr x 8 4 0 9 in
  let x := xr x 12 8 4 13 in let x := xr x 0 12 8 18 in
  let x := xr x 9 5 1 7 in let x := xr x 13 9 5 9 in
  let x := xr x 1 13 9 13 in let x := xr x 5 1 13 18 in
  let x := xr x 14 10 6 7 in let x := xr x 2 14 10 9 in
  let x := xr x 6 2 14 13 in let x := xr x 10 6 2 18 in
  let x := xr x 3 15 11 7 in let x := xr x 7 3 15 9 in
  let x := xr x 11 7 3 13 in let x := xr x 15 11 7 18 in
  (* rows *)
  let x := xr x 1 0 3 7 in let x := xr x 2 1 0 9 in
  let x := xr x 3 2 1 13 in let x := xr x 0 3 2 18 in
  let x := xr x 6 5 4 7 in let x := xr x 7 6 5 9 in
  let x := xr x 4 7 6 13 in let x := xr x 5 4 7 18 in
  let x := xr x 11 10 9 7 in let x := xr x 8 11 10 9 in
  let x := xr x 9 8 11 13 in let x := xr x 10 9 8 18 in
  let x := xr x 12 15 14 7 in let x := xr x 13 12 15 9 in
  let x := xr x 14 13 12 13 in let x := xr x 15 14 13 18 in
  x.
(* for (i = 0; i < n; i += 2) body *)
Fixpoint loop2 {A} (fuel : nat) (i n : N) (body : A -> A) (x : A) : res A :=
  if i <? n then
    match fuel with O => UB | S f => loop2 f (i + 2) n body (body x) end
  else Ok x.
(* for (i = 0; i < 16; i++) B[i] += x[i]; *)
Definition add_words (B x : list N) : list N :=
  map (fun i => add32 (sel B i) (sel x i)) (seq 0 16).
(* crypto_scrypt_smix.c:62-100 salsa20_8 on the 16 words of B *)
Definition salsa20_8 (B : list N) : res (list N) :=
  x <- rd B 0 16 ;;
  x <- loop2 4 0 8 salsa_body x ;;
  wr B 0 (add_words B x).

(* crypto_scrypt_smix.c:116-133: for (i = 0; i < 2 * r; i += 2) *)
Fixpoint blockmix_loop (fuel : nat) (i r : nat) (Bin Bout X : list N)
  : res (list N * list N) :=
  if Nat.ltb i (2 * r) then
    match fuel with
    | O => UB
    | S f =>
        X <- blkxor X 0 Bin (i * 16) 64 ;;
        X <- salsa20_8 X ;;
        Bout <- blkcpy Bout (i * 8) X 0 64 ;;
        X <- blkxor X 0 Bin (i * 16 + 16) 64 ;;
        X <- salsa20_8 X ;;
        Bout <- blkcpy Bout (i * 8 + r * 16) X 0 64 ;;
        blockmix_loop f (i + 2) r Bin Bout X
    end
  else Ok (Bout, X).
(* crypto_scrypt_smix.c:108-134 blockmix_salsa8: new Bout and X *)
Definition blockmix_salsa8 (Bin Bout X : list N) (r : nat) : res (list N * list N) :=
  X <- blkcpy X 0 Bin ((2 * r - 1) * 16) 64 ;;
  blockmix_loop r 0 r Bin Bout X.

(* crypto_scrypt_smix.c:140-146 integerify *)
Definition integerify (B : list N) (r : nat) : res N :=
  X <- rd B ((2 * r - 1) * 16) 2 ;;
  Ok (w64 (w64 (N.shiftl (sel X 1) 32) + sel X 0)).

(* ---------------- crypto_scrypt_smix_sse2.c ----------------------------- *)
(* crypto_scrypt_smix_sse2.c:82-118: the loop body on (X0, X1, X2, X3) *)
Definition sse2_qr (T X : v4) (a b : N) : v4 :=
  (* X = _mm_xor_si128(X, _mm_slli_epi32(T, a)); X = _mm_xor_si128(X, _mm_srli_epi32(T, b)); *)
  mm_xor (mm_xor X (mm_slli_epi32 T a)) (mm_srli_epi32 T b).
(* crypto_scrypt_smix_sse2.c:81-119: one turn of the loop of salsa20_8 *)
Definition sse2_body (s : v4 * v4 * v4 * v4) : v4 * v4 * v4 * v4 :=
  let '(X0, X1, X2, X3) := s in
  let X1 := sse2_qr (mm_add_epi32 X0 X3) X1 7 25 in
  let X2 := sse2_qr (mm_add_epi32 X1 X0) X2 9 23 in
  let X3 := sse2_qr (mm_add_epi32 X2 X1) X3 13 19 in
  let X0 := sse2_qr (mm_add_epi32 X3 X2) X0 18 14 in
  let X1 := mm_shuffle_epi32 X1 0x93 in
  let X2 := mm_shuffle_epi32 X2 0x4E in
  let X3 := mm_shuffle_epi32 X3 0x39 in
  let X3 := sse2_qr (mm_add_epi32 X0 X1) X3 7 25 in
  let X2 := sse2_qr (mm_add_epi32 X3 X0) X2 9 23 in
  let X1 := sse2_qr (mm_add_epi32 X2 X3) X1 13 19 in
  let X0 := sse2_qr (mm_add_epi32 X1 X2) X0 18 14 in
  let X1 := mm_shuffle_epi32 X1 0x39 in
  let X2 := mm_shuffle_epi32 X2 0x4E in
  let X3 := mm_shuffle_epi32 X3 0x93 in
  (X0, X1, X2, X3).
(* crypto_scrypt_smix_sse2.c:69-125 salsa20_8 *)
Definition salsa20_8_sse2 (B : list N) : res (list N) :=
  B0 <- vload32 B 0 ;; B1 <- vload32 B 4 ;; B2 <- vload32 B 8 ;; B3 <- vload32 B 12 ;;
  ' (X0, X1, X2, X3) <- loop2 4 0 8 sse2_body (B0, B1, B2, B3) ;;
  B <- vstore32 B 0 (mm_add_epi32 B0 X0) ;;
  B <- vstore32 B 4 (mm_add_epi32 B1 X1) ;;
  B <- vstore32 B 8 (mm_add_epi32 B2 X2) ;;
  vstore32 B 12 (mm_add_epi32 B3 X3).
(* crypto_scrypt_smix_sse2.c:141-158: for (i = 0; i < r; i++); Bin and Bout are
   indexed in __m128i, i.e. 4 words *)
Fixpoint blockmix_loop_sse2 (fuel : nat) (i r : nat) (Bin Bout X : list N)
  : res (list N * list N) :=
  if Nat.ltb i r then
    match fuel with
    | O => UB
    | S f =>
        X <- blkxor X 0 Bin (4 * (i * 8)) 64 ;;
        X <- salsa20_8_sse2 X ;;
        Bout <- blkcpy Bout (4 * (i * 4)) X 0 64 ;;
        X <- blkxor X 0 Bin (4 * (i * 8 + 4)) 64 ;;
        X <- salsa20_8_sse2 X ;;
        Bout <- blkcpy Bout (4 * ((r + i) * 4)) X 0 64 ;;
        blockmix_loop_sse2 f (i + 1) r Bin Bout X
    end
  else Ok (Bout, X).
(* crypto_scrypt_smix_sse2.c:133-159 blockmix_salsa8 *)
Definition blockmix_salsa8_sse2 (Bin Bout X : list N) (r : nat) : res (list N * list N) :=
  X <- blkcpy X 0 Bin (4 * (8 * r - 4)) 64 ;;
  blockmix_loop_sse2 r 0 r Bin Bout X.
(* crypto_scrypt_smix_sse2.c:166-179 integerify: lane 0 of X[0], lane 1 of X[3] *)
Definition integerify_sse2 (B : list N) (r : nat) : res N :=
  X <- rd B (4 * ((2 * r - 1) * 4)) 16 ;;
  X0v <- vload32 X 0 ;; X3v <- vload32 X 12 ;;
  Ok (w64 (w64 (N.shiftl (vlane X3v 1) 32) + vlane X0v 0)).

(* ---------------- the smix loops (same text in both files) -------------- *)
Section Loops.
  Context (bmix : list N -> list N -> list N -> nat -> res (list N * list N))
          (intg : list N -> nat -> res N).
  (* crypto_scrypt_smix.c:172-185, crypto_scrypt_smix_sse2.c:210-224: steps 2-4 *)
  Fixpoint smix_fill (fuel : nat) (i N_ : N) (r : nat) (V X Y Z : list N)
    : res (list N * list N * list N * list N) :=
    if i <? N_ then
      match fuel with
      | O => UB
      | S f =>
          V <- blkcpy V (N.to_nat i * (32 * r)) X 0 (128 * r) ;;
          ' (Y, Z) <- bmix X Y Z r ;;
          V <- blkcpy V (N.to_nat (w64 (i + 1)) * (32 * r)) Y 0 (128 * r) ;;
          ' (X, Z) <- bmix Y X Z r ;;
          smix_fill f (w64 (i + 2)) N_ r V X Y Z
      end
    else Ok (V, X, Y, Z).
  (* crypto_scrypt_smix.c:187-202, crypto_scrypt_smix_sse2.c:226-241: steps 6-8 *)
  Fixpoint smix_mix (fuel : nat) (i N_ : N) (r : nat) (V X Y Z : list N)
    : res (list N * list N * list N) :=
    if i <? N_ then
      match fuel with
      | O => UB
      | S f =>
          j <- intg X r ;;
          let j := N.land j (w64 (2 ^ 64 + N_ - 1)) in
          X <- blkxor X 0 V (N.to_nat j * (32 * r)) (128 * r) ;;
          ' (Y, Z) <- bmix X Y Z r ;;
          j <- intg Y r ;;
          let j := N.land j (w64 (2 ^ 64 + N_ - 1)) in
          Y <- blkxor Y 0 V (N.to_nat j * (32 * r)) (128 * r) ;;
          ' (X, Z) <- bmix Y X Z r ;;
          smix_mix f (w64 (i + 2)) N_ r V X Y Z
      end
    else Ok (X, Y, Z).
End Loops.

(* the word array index i*5%16 of crypto_scrypt_smix_sse2.c:204-205 *)
Definition perm5 (i : nat) : nat := (i * 5 mod 16)%nat.

(* crypto_scrypt_smix.c:168-170: for (k = 0; k < 32 * r; k++) X[k] = le32dec(&B[4 * k]); *)
Fixpoint load_words (n k : nat) (B X : list N) : res (list N) :=
  match n with
  | O => Ok X
  | S n' => b <- rd B (4 * k) 4 ;; X <- wr X k [le32dec b] ;; load_words n' (S k) B X
  end.
(* crypto_scrypt_smix.c:204-206: le32enc(&B[4 * k], X[k]) *)
Fixpoint store_words (n k : nat) (X B : list N) : res (list N) :=
  match n with
  | O => Ok B
  | S n' => x <- rd X k 1 ;; B <- wr B (4 * k) (le32enc (sel x 0)) ;; store_words n' (S k) X B
  end.
(* crypto_scrypt_smix_sse2.c:202-208: X32[k*16+i] = le32dec(&B[(k*16 + (i*5%16)) * 4]);
   the two nested loops are one loop over m = k*16+i *)
Fixpoint load_words_sse2 (n m : nat) (B X : list N) : res (list N) :=
  match n with
  | O => Ok X
  | S n' =>
      let k := (m / 16)%nat in let i := (m mod 16)%nat in
      b <- rd B ((k * 16 + perm5 i) * 4) 4 ;;
      X <- wr X (k * 16 + i) [le32dec b] ;;
      load_words_sse2 n' (S m) B X
  end.
(* crypto_scrypt_smix_sse2.c:243-249 *)
Fixpoint store_words_sse2 (n m : nat) (X B : list N) : res (list N) :=
  match n with
  | O => Ok B
  | S n' =>
      let k := (m / 16)%nat in let i := (m mod 16)%nat in
      x <- rd X (k * 16 + i) 1 ;;
      B <- wr B ((k * 16 + perm5 i) * 4) (le32enc (sel x 0)) ;;
      store_words_sse2 n' (S m) X B
  end.

(** Split XY into X, Y, Z: uint32_t *X = XY, *Y = XY + 128r, *Z = XY + 256r (bytes). *)
Definition split_XY (XY : list N) (r : nat) : res (list N * list N * list N) :=
  X <- rd XY 0 (32 * r) ;; Y <- rd XY (32 * r) (32 * r) ;; Z <- rd XY (64 * r) 16 ;;
  Ok (X, Y, Z).

(* crypto_scrypt_smix.c:156-206 crypto_scrypt_smix: new B, V, XY *)
Definition crypto_scrypt_smix (B : bytes) (r : nat) (N_ : N) (V XY : list N)
  : res (bytes * list N * list N) :=
  ' (X, Y, Z) <- split_XY XY r ;;
  X <- load_words (32 * r) 0 B X ;;
  ' (V, X, Y, Z) <- smix_fill blockmix_salsa8 (N.to_nat N_) 0 N_ r V X Y Z ;;
  ' (X, Y, Z) <- smix_mix blockmix_salsa8 integerify (N.to_nat N_) 0 N_ r V X Y Z ;;
  B <- store_words (32 * r) 0 X B ;;
  Ok (B, V, X ++ Y ++ Z).
(* crypto_scrypt_smix_sse2.c:191-249 crypto_scrypt_smix_sse2 *)
Definition crypto_scrypt_smix_sse2 (B : bytes) (r : nat) (N_ : N) (V XY : list N)
  : res (bytes * list N * list N) :=
  ' (X, Y, Z) <- split_XY XY r ;;
  X <- load_words_sse2 (32 * r) 0 B X ;;
  ' (V, X, Y, Z) <- smix_fill blockmix_salsa8_sse2 (N.to_nat N_) 0 N_ r V X Y Z ;;
  ' (X, Y, Z) <- smix_mix blockmix_salsa8_sse2 integerify_sse2 (N.to_nat N_) 0 N_ r V X Y Z ;;
  B <- store_words_sse2 (32 * r) 0 X B ;;
  Ok (B, V, X ++ Y ++ Z).

(* ---------------- lib-platform/crypto/crypto_scrypt.c ------------------- *)
(** Outcome of crypto_scrypt: return value 0, or -1 with errno (or because
    munmap failed). *)
Inductive scrypt_rc := SC_OK | SC_EINVAL | SC_EFBIG | SC_ENOMEM | SC_MUNMAP.
(** Which of the allocations succeed, and whether munmap does.  The contents
    of fresh memory come from [junk]. *)
Record alloc_env := mk_alloc { al_B : bool; al_XY : bool; al_V : bool; al_unmap : bool }.

(* the type of an smix routine (crypto_scrypt.c:52): B, r, N, V, XY to the new B, V, XY *)
Definition smix_fn := bytes -> nat -> N -> list N -> list N -> res (bytes * list N * list N).

Section CryptoScrypt.
  (** [szb]: width of size_t in bits. *)
  Context (szb : N) (hw : sha_hw) (junk : nat -> N).
  (* arithmetic in size_t *)
  Definition wsz (x : N) : N := x mod 2 ^ szb.
  (* <stdint.h> SIZE_MAX *)
  Definition SIZE_MAX : N := 2 ^ szb - 1.

  (* crypto_scrypt.c:68-97: the parameter checks *)
  Definition scrypt_checks (N_ r p buflen : N) : option scrypt_rc :=
    if (r =? 0) || (p =? 0) then Some SC_EINVAL else
    if (0xffffffff <? SIZE_MAX) && ((2 ^ 32 - 1) * 32 <? buflen) then Some SC_EFBIG else
    if N.shiftl 1 30 <=? w64 (r * p) then Some SC_EFBIG else
    if negb (N.land N_ (w64 (2 ^ 64 + N_ - 1)) =? 0) || (N_ <? 2) then Some SC_EINVAL else
    if (SIZE_MAX / 128 / p <? r)
       || ((SIZE_MAX / 256 <=? 0xffffffff) && ((SIZE_MAX - 64) / 256 <? r))
       || (SIZE_MAX / 128 / r <? N_) then Some SC_ENOMEM else
    None.

  (* the allocation sizes, crypto_scrypt.c:101-137 *)
  Definition size_B (r p : N) : N := wsz (wsz (128 * r) * p).
  (* crypto_scrypt.c:101, 113: 256 * r + 64 *)
  Definition size_XY (r : N) : N := wsz (wsz (256 * r) + 64).
  (* crypto_scrypt.c:105, 117, 122: 128 * r * N *)
  Definition size_V (r N_ : N) : N := wsz (w64 (wsz (128 * r) * N_)).

  (* crypto_scrypt.c:143-147: for (i = 0; i < p; i++) smix(&B[i * 128 * r], r, N, V, XY);
     i is a uint32_t, so the product i * 128 is computed in 32 bits.  smix is
     given the 128r bytes at that address. *)
  Fixpoint smix_all (smix : smix_fn) (fuel : nat) (i p r N_ : N) (B : bytes) (V XY : list N)
    : res bytes :=
    if i <? p then
      match fuel with
      | O => UB
      | S f =>
          let off := N.to_nat (wsz (w32 (i * 128) * r)) in
          Bi <- rd B off (N.to_nat (128 * r)) ;;
          ' (Bi, V, XY) <- smix Bi (N.to_nat r) N_ V XY ;;
          B <- wr B off Bi ;;
          smix_all smix f (w32 (i + 1)) p r N_ B V XY
      end
    else Ok B.

  (* crypto_scrypt.c:55-166 crypto_scrypt_internal; [buf] is the caller's
     buffer of (at least) buflen bytes *)
  Definition crypto_scrypt_internal (smix : smix_fn) (env : alloc_env)
    (passwd salt : bytes) (N_ r p : N) (buf : bytes) (buflen : N) : res (scrypt_rc * bytes) :=
    match scrypt_checks N_ r p buflen with
    | Some e => Ok (e, buf)
    | None =>
        if negb (al_B env) then Ok (SC_ENOMEM, buf) else
        if negb (al_XY env) then Ok (SC_ENOMEM, buf) else
        if negb (al_V env) then Ok (SC_ENOMEM, buf) else
        let B := scratch_bytes junk (N.to_nat (size_B r p)) in
        let XY := scratch_words junk (N.to_nat (size_XY r / 4)) in
        let V := scratch_words junk (N.to_nat (size_V r N_ / 4)) in
        let Blen := wsz (wsz (p * 128) * r) in
        B <- PBKDF2_SHA256 hw junk passwd salt 1 B Blen ;;
        B <- smix_all smix (N.to_nat p) 0 p r N_ B V XY ;;
        Bin <- rd B 0 (N.to_nat Blen) ;;
        buf <- PBKDF2_SHA256 hw junk passwd Bin 1 buf buflen ;;
        Ok (if al_unmap env then SC_OK else SC_MUNMAP, buf)
    end.
End CryptoScrypt.

(* ---------------- lib/crypto/crypto_scrypt-ref.c ------------------------ *)
(* crypto_scrypt-ref.c:48-63 blkcpy, blkxor on bytes *)
Definition blkcpy8 (dest : bytes) (d : nat) (src : bytes) (s len : nat) : res bytes :=
  l <- rd src s len ;; wr dest d l.
(* crypto_scrypt-ref.c:56-63 blkxor on bytes *)
Definition blkxor8 (dest : bytes) (d : nat) (src : bytes) (s len : nat) : res bytes :=
  l <- rd src s len ;; m <- rd dest d len ;; wr dest d (xorl m l).
(* crypto_scrypt-ref.c:69-119 salsa20_8 on 64 bytes *)
Definition salsa20_8_ref (B : bytes) : res bytes :=
  B32 <- load_words 16 0 B (repeat 0 16) ;;
  x <- loop2 4 0 8 salsa_body B32 ;;
  store_words 16 0 (add_words B32 x) B.
(* crypto_scrypt-ref.c:136-143: for (i = 0; i < 2 * r; i++) *)
Fixpoint blockmix_ref_loop (n i : nat) (B Y X : bytes) : res bytes :=
  match n with
  | O => Ok Y
  | S n' =>
      X <- blkxor8 X 0 B (i * 64) 64 ;;
      X <- salsa20_8_ref X ;;
      Y <- blkcpy8 Y (i * 64) X 0 64 ;;
      blockmix_ref_loop n' (S i) B Y X
  end.
(* crypto_scrypt-ref.c:146-147: for (i < r) blkcpy(&B[i * 64], &Y[(i * 2) * 64], 64); *)
Fixpoint ref_copy_even (n i : nat) (B Y : bytes) : res bytes :=
  match n with
  | O => Ok B
  | S n' => B <- blkcpy8 B (i * 64) Y ((i * 2) * 64) 64 ;; ref_copy_even n' (S i) B Y
  end.
(* crypto_scrypt-ref.c:148-149: blkcpy(&B[(i + r) * 64], &Y[(i * 2 + 1) * 64], 64); *)
Fixpoint ref_copy_odd (n i r : nat) (B Y : bytes) : res bytes :=
  match n with
  | O => Ok B
  | S n' => B <- blkcpy8 B ((i + r) * 64) Y ((i * 2 + 1) * 64) 64 ;; ref_copy_odd n' (S i) r B Y
  end.
(* crypto_scrypt-ref.c:126-150 blockmix_salsa8: new B and Y; the local X[64] is
   uninitialised at entry and fully overwritten *)
Definition blockmix_ref (B Y : bytes) (r : nat) : res (bytes * bytes) :=
  X <- blkcpy8 (repeat 0 64) 0 B ((2 * r - 1) * 64) 64 ;;
  Y <- blockmix_ref_loop (2 * r) 0 B Y X ;;
  B <- ref_copy_even r 0 B Y ;;
  B <- ref_copy_odd r 0 r B Y ;;
  Ok (B, Y).
(* crypto_scrypt-ref.c:156-162 integerify *)
Definition integerify_ref (B : bytes) (r : nat) : res N :=
  X <- rd B ((2 * r - 1) * 64) 8 ;; Ok (le64dec X).
(* crypto_scrypt-ref.c:181-188 *)
Fixpoint smix_ref_fill (fuel : nat) (i N_ : N) (r : nat) (V X Y : bytes)
  : res (bytes * bytes * bytes) :=
  if i <? N_ then
    match fuel with
    | O => UB
    | S f =>
        V <- blkcpy8 V (N.to_nat i * (128 * r)) X 0 (128 * r) ;;
        ' (X, Y) <- blockmix_ref X Y r ;;
        smix_ref_fill f (w64 (i + 1)) N_ r V X Y
    end
  else Ok (V, X, Y).
(* crypto_scrypt-ref.c:190-198 *)
Fixpoint smix_ref_mix (fuel : nat) (i N_ : N) (r : nat) (V X Y : bytes)
  : res (bytes * bytes) :=
  if i <? N_ then
    match fuel with
    | O => UB
    | S f =>
        j <- integerify_ref X r ;;
        let j := N.land j (w64 (2 ^ 64 + N_ - 1)) in
        X <- blkxor8 X 0 V (N.to_nat j * (128 * r)) (128 * r) ;;
        ' (X, Y) <- blockmix_ref X Y r ;;
        smix_ref_mix f (w64 (i + 1)) N_ r V X Y
    end
  else Ok (X, Y).
(* crypto_scrypt-ref.c:170-202 smix; XY is split into X and Y *)
Definition smix_ref (B : bytes) (r : nat) (N_ : N) (V XY : bytes) : res (bytes * bytes * bytes) :=
  X <- rd XY 0 (128 * r) ;; Y <- rd XY (128 * r) (128 * r) ;;
  X <- blkcpy8 X 0 B 0 (128 * r) ;;
  ' (V, X, Y) <- smix_ref_fill (N.to_nat N_) 0 N_ r V X Y ;;
  ' (X, Y) <- smix_ref_mix (N.to_nat N_) 0 N_ r V X Y ;;
  B <- blkcpy8 B 0 X 0 (128 * r) ;;
  Ok (B, V, X ++ Y).

Section CryptoScryptRef.
  Context (szb : N) (hw : sha_hw) (junk : nat -> N).
  (* crypto_scrypt-ref.c:225-247: the parameter checks; division by zero is UB *)
  Definition scrypt_checks_ref (N_ r p buflen : N) : res (option scrypt_rc) :=
    if (0xffffffff <? SIZE_MAX szb) && ((2 ^ 32 - 1) * 32 <? buflen) then Ok (Some SC_EFBIG) else
    if N.shiftl 1 30 <=? w64 (r * p) then Ok (Some SC_EFBIG) else
    if negb (N.land N_ (w64 (2 ^ 64 + N_ - 1)) =? 0) || (N_ =? 0) then Ok (Some SC_EINVAL) else
    if p =? 0 then UB else
    if SIZE_MAX szb / 128 / p <? r then Ok (Some SC_ENOMEM) else
    if (SIZE_MAX szb / 256 <=? 0xffffffff) && (SIZE_MAX szb / 256 <? r)
    then Ok (Some SC_ENOMEM) else
    if r =? 0 then UB else
    if SIZE_MAX szb / 128 / r <? N_ then Ok (Some SC_ENOMEM) else
    Ok None.
  (* crypto_scrypt-ref.c:260-263, as smix_all *)
  Fixpoint smix_all_ref (fuel : nat) (i p r N_ : N) (B V XY : bytes) : res bytes :=
    if i <? p then
      match fuel with
      | O => UB
      | S f =>
          let off := N.to_nat (wsz szb (w32 (i * 128) * r)) in
          Bi <- rd B off (N.to_nat (128 * r)) ;;
          ' (Bi, V, XY) <- smix_ref Bi (N.to_nat r) N_ V XY ;;
          B <- wr B off Bi ;;
          smix_all_ref f (w32 (i + 1)) p r N_ B V XY
      end
    else Ok B.
  (* crypto_scrypt-ref.c:213-283 crypto_scrypt *)
  Definition crypto_scrypt_ref (env : alloc_env)
    (passwd salt : bytes) (N_ r p : N) (buf : bytes) (buflen : N) : res (scrypt_rc * bytes) :=
    chk <- scrypt_checks_ref N_ r p buflen ;;
    match chk with
    | Some e => Ok (e, buf)
    | None =>
        if negb (al_B env) then Ok (SC_ENOMEM, buf) else
        if negb (al_XY env) then Ok (SC_ENOMEM, buf) else
        if negb (al_V env) then Ok (SC_ENOMEM, buf) else
        let B := scratch_bytes junk (N.to_nat (size_B szb r p)) in
        let XY := scratch_bytes junk (N.to_nat (wsz szb (256 * r))) in
        let V := scratch_bytes junk (N.to_nat (size_V szb r N_)) in
        let Blen := wsz szb (wsz szb (p * 128) * r) in
        B <- PBKDF2_SHA256 hw junk passwd salt 1 B Blen ;;
        B <- smix_all_ref (N.to_nat p) 0 p r N_ B V XY ;;
        Bin <- rd B 0 (N.to_nat Blen) ;;
        buf <- PBKDF2_SHA256 hw junk passwd Bin 1 buf buflen ;;
        Ok (SC_OK, buf)
    end.
End CryptoScryptRef.
