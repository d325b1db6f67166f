(** SHA-256 (FIPS 180-4), HMAC (RFC 2104) and PBKDF2 (RFC 8018),
    written from the standards, independently of the code in /repo. *)
From Verif Require Import Base SpecBytes.

(* ---------------- FIPS 180-4, section 4.2.2 and 5.3.3: constants -------- *)
(** Greatest x < 2^bits with f x <= v, found bit by bit. *)
Fixpoint bitsearch (f : N -> N) (v : N) (bits : nat) (x : N) : N :=
  match bits with
  | O => x
  | S b => let x' := x + 2 ^ N.of_nat b in
           bitsearch f v b (if f x' <=? v then x' else x)
  end.
(** floor (sqrt p * 2^32), floor (cbrt p * 2^32). *)
Definition isqrt32 (p : N) : N := bitsearch (fun x => x * x) (p * 2 ^ 64) 40 0.
Definition icbrt32 (p : N) : N := bitsearch (fun x => x * x * x) (p * 2 ^ 96) 40 0.
Definition is_prime (n : N) : bool :=
  (2 <=? n) && forallb (fun d => negb (n mod (N.of_nat d) =? 0)) (seq 2 (N.to_nat n - 2)).
(** The first 64 primes (the 64th is 311). *)
Definition primes64 : list N :=
  filter is_prime (map N.of_nat (seq 0 312)).
(** First 32 bits of the fractional parts. *)
Definition K256 : list N := map (fun p => icbrt32 p mod 2 ^ 32) primes64.
Definition H256 : list N := map (fun p => isqrt32 p mod 2 ^ 32) (firstn 8 primes64).

(* ---------------- FIPS 180-4, section 4.1.2: functions ------------------ *)
Definition rotr32 (n x : N) : N := N.lor (N.shiftr x n) (w32 (N.shiftl x (32 - n))).
Definition shr32 (n x : N) : N := N.shiftr x n.
(** Ch(x,y,z) = (x and y) xor (not x and z) *)
Definition Ch (x y z : N) : N := N.lxor (N.land x y) (N.ldiff z x).
Definition Maj (x y z : N) : N :=
  N.lxor (N.lxor (N.land x y) (N.land x z)) (N.land y z).
Definition Sigma0 x := N.lxor (N.lxor (rotr32 2 x) (rotr32 13 x)) (rotr32 22 x).
Definition Sigma1 x := N.lxor (N.lxor (rotr32 6 x) (rotr32 11 x)) (rotr32 25 x).
Definition sigma0 x := N.lxor (N.lxor (rotr32 7 x) (rotr32 18 x)) (shr32 3 x).
Definition sigma1 x := N.lxor (N.lxor (rotr32 17 x) (rotr32 19 x)) (shr32 10 x).

(* ---------------- FIPS 180-4, section 6.2.2: block processing ----------- *)
(** Message schedule: W_t for t >= 16 from the words so far. *)
Definition next_W (W : list N) : N :=
  let t := length W in
  add32 (add32 (add32 (sigma1 (nth (t - 2) W 0)) (nth (t - 7) W 0))
               (sigma0 (nth (t - 15) W 0))) (nth (t - 16) W 0).
Fixpoint extend_W (n : nat) (W : list N) : list N :=
  match n with O => W | S m => extend_W m (W ++ [next_W W]) end.
Definition schedule (block : bytes) : list N :=
  extend_W 48 (map be_val (chunks 4 block)).

(** One round on (a,b,c,d,e,f,g,h). *)
Definition round256 (s : list N) (k w : N) : list N :=
  match s with
  | [a; b; c; d; e; f; g; h] =>
      let T1 := add32 (add32 (add32 (add32 h (Sigma1 e)) (Ch e f g)) k) w in
      let T2 := add32 (Sigma0 a) (Maj a b c) in
      [add32 T1 T2; a; b; c; add32 d T1; e; f; g]
  | _ => s
  end.
Fixpoint rounds256 (s : list N) (ks ws : list N) : list N :=
  match ks, ws with
  | k :: ks', w :: ws' => rounds256 (round256 s k w) ks' ws'
  | _, _ => s
  end.
Fixpoint map2 (f : N -> N -> N) (a b : list N) : list N :=
  match a, b with x :: a', y :: b' => f x y :: map2 f a' b' | _, _ => [] end.
Definition compress (H : list N) (block : bytes) : list N :=
  map2 add32 H (rounds256 H K256 (schedule block)).

(* ---------------- FIPS 180-4, section 5.1.1: padding -------------------- *)
(** Append 0x80, then the least number of zero bytes making the length
    56 mod 64, then the bit length as 64-bit big-endian.  (FIPS 180-4
    requires fewer than 2^64 bits; be_bytes 8 reduces mod 2^64 beyond.) *)
Definition zeros (n : nat) : bytes := repeat 0 n.
Definition padzeros (len : nat) : nat := ((119 - len mod 64) mod 64)%nat.
Definition sha_pad (m : bytes) : bytes :=
  m ++ [0x80] ++ zeros (padzeros (length m)) ++ be_bytes 8 (8 * N.of_nat (length m)).

Definition sha_blocks (H : list N) (padded : bytes) : list N :=
  fold_left compress (chunks 64 padded) H.
Definition words_bytes (ws : list N) : bytes := flat_map (be_bytes 4) ws.
Definition sha256 (m : bytes) : bytes := words_bytes (sha_blocks H256 (sha_pad m)).

(* ---------------- RFC 2104 with SHA-256 (B = 64) ------------------------ *)
Definition hmac_key (K : bytes) : bytes :=
  let K0 := if Nat.ltb 64 (length K) then sha256 K else K in
  K0 ++ zeros (64 - length K0).
Definition hmac (K m : bytes) : bytes :=
  let k := hmac_key K in
  sha256 (map (N.lxor 0x5c) k ++ sha256 (map (N.lxor 0x36) k ++ m)).

(* ---------------- RFC 8018, section 5.2: PBKDF2 with HMAC-SHA-256 ------- *)
(** U_1 = PRF(P, S || INT(i)), U_{j+1} = PRF(P, U_j); T_i = U_1 xor ... xor U_c. *)
Fixpoint pbkdf2_xor (P U T : bytes) (more : nat) : bytes :=
  match more with
  | O => T
  | S m => let U' := hmac P U in pbkdf2_xor P U' (xorl T U') m
  end.
Definition pbkdf2_T (P S : bytes) (c : N) (i : N) : bytes :=
  let U1 := hmac P (S ++ be_bytes 4 i) in
  pbkdf2_xor P U1 U1 (N.to_nat c - 1).
(** DK = T_1 || T_2 || ... truncated to dkLen. *)
Definition pbkdf2 (P S : bytes) (c : N) (dkLen : nat) : bytes :=
  firstn dkLen (flat_map (fun i => pbkdf2_T P S c (N.of_nat i))
                         (seq 1 ((dkLen + 31) / 32))).
