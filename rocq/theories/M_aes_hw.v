(** Models of crypto_aes_aesni.c and crypto_aes_arm.c.

    A 128-bit register is its 16 bytes, element 0 being bits 7..0 (so that a
    load or store copies memory order).  The instruction definitions are per
    the Intel SDM / Arm ARM and belong to the trusted base. *)
From Verif Require Import Base SpecBytes SpecAES.

(** _mm_loadu_si128 / vld1q_u8; a store is the identity. *)
Definition vld16 (p : bytes) (o : nat) : res bytes := rd p o 16.
(** _mm_xor_si128 / veorq_u8 *)
Definition vxor (a b : bytes) : bytes := xorl a b.
(** _mm_slli_si128(a, n): shift left by n bytes *)
Definition mm_slli_si128 (a : bytes) (n : nat) : bytes := repeat 0 n ++ firstn (16 - n) a.
(** 32-bit lane i *)
Definition lane (a : bytes) (i : nat) : bytes := sub a (4 * i) 4.
(** _mm_shuffle_epi32(a, imm) *)
Definition mm_shuffle32 (a : bytes) (imm : N) : bytes :=
  flat_map (fun i => lane a (N.to_nat (N.land (N.shiftr imm (2 * N.of_nat i)) 3))) (seq 0 4).
(** _mm_aesenc_si128: ShiftRows, SubBytes, MixColumns, xor round key *)
Definition mm_aesenc (s rk : bytes) : bytes := vxor (MixColumns (SubBytes (ShiftRows s))) rk.
(** _mm_aesenclast_si128 *)
Definition mm_aesenclast (s rk : bytes) : bytes := vxor (SubBytes (ShiftRows s)) rk.
(** _mm_aeskeygenassist_si128(a, rcon): X1 = lane 1, X3 = lane 3;
    SubWord(X1), RotWord(SubWord(X1)) ^ rcon, SubWord(X3), RotWord(SubWord(X3)) ^ rcon *)
Definition mm_aeskeygenassist (a : bytes) (rcon : N) : bytes :=
  SubWord (lane a 1) ++ xorl (RotWord (SubWord (lane a 1))) [rcon; 0; 0; 0] ++
  SubWord (lane a 3) ++ xorl (RotWord (SubWord (lane a 3))) [rcon; 0; 0; 0].

(** Array element access for arrays of registers. *)
Definition rdv (rkeys : list bytes) (i : nat) : res bytes :=
  match nth_error rkeys i with Some v => Ok v | None => UB end.
(* rkeys[i] = v: a store into the array of round keys (crypto_aes_aesni.c:24-33, crypto_aes_arm.c:102-110) *)
Definition wrv (rkeys : list bytes) (i : nat) (v : bytes) : res (list bytes) := wr rkeys i [v].

(* crypto_aes_aesni.c:25-33 MKRKEY128 *)
Definition MKRKEY128 (rkeys : list bytes) (i : nat) (rcon : N) : res (list bytes) :=
  s <- rdv rkeys (i - 1) ;;
  t <- rdv rkeys (i - 1) ;;
  let s := vxor s (mm_slli_si128 s 4) in
  let s := vxor s (mm_slli_si128 s 8) in
  let t := mm_aeskeygenassist t rcon in
  let t := mm_shuffle32 t 0xff in
  wrv rkeys i (vxor s t).
(* crypto_aes_aesni.c:42-78 crypto_aes_key_expand_128_aesni *)
Definition rcons128 : list (nat * N) :=
  [(1%nat, 0x01); (2%nat, 0x02); (3%nat, 0x04); (4%nat, 0x08); (5%nat, 0x10);
   (6%nat, 0x20); (7%nat, 0x40); (8%nat, 0x80); (9%nat, 0x1b); (10%nat, 0x36)].
(* the expansions of a macro one after another; not code of its own *)
Definition seqm {A B} (f : A -> B -> res A) (l : list B) (a : A) : res A :=
  fold_left (fun acc b => x <- acc ;; f x b) l (Ok a).
(* crypto_aes_aesni.c:35-78 crypto_aes_key_expand_128_aesni *)
Definition key_expand_128_aesni (key : bytes) (rkeys : list bytes) : res (list bytes) :=
  k0 <- vld16 key 0 ;;
  rkeys <- wrv rkeys 0 k0 ;;
  seqm (fun rk e => MKRKEY128 rk (fst e) (snd e)) rcons128 rkeys.

(* crypto_aes_aesni.c:81-89 MKRKEY256 *)
Definition MKRKEY256 (rkeys : list bytes) (i : nat) (shuffle rcon : N) : res (list bytes) :=
  s <- rdv rkeys (i - 2) ;;
  t <- rdv rkeys (i - 1) ;;
  let s := vxor s (mm_slli_si128 s 4) in
  let s := vxor s (mm_slli_si128 s 8) in
  let t := mm_aeskeygenassist t rcon in
  let t := mm_shuffle32 t shuffle in
  wrv rkeys i (vxor s t).
(* crypto_aes_aesni.c:98-141 crypto_aes_key_expand_256_aesni *)
Definition rcons256 : list (nat * (N * N)) :=
  [(2%nat, (0xff, 0x01)); (3%nat, (0xaa, 0x00)); (4%nat, (0xff, 0x02)); (5%nat, (0xaa, 0x00));
   (6%nat, (0xff, 0x04)); (7%nat, (0xaa, 0x00)); (8%nat, (0xff, 0x08)); (9%nat, (0xaa, 0x00));
   (10%nat, (0xff, 0x10)); (11%nat, (0xaa, 0x00)); (12%nat, (0xff, 0x20)); (13%nat, (0xaa, 0x00));
   (14%nat, (0xff, 0x40))].
(* crypto_aes_aesni.c:91-141 crypto_aes_key_expand_256_aesni *)
Definition key_expand_256_aesni (key : bytes) (rkeys : list bytes) : res (list bytes) :=
  k0 <- vld16 key 0 ;;
  rkeys <- wrv rkeys 0 k0 ;;
  k1 <- vld16 key 16 ;;
  rkeys <- wrv rkeys 1 k1 ;;
  seqm (fun rk e => MKRKEY256 rk (fst e) (fst (snd e)) (snd (snd e))) rcons256 rkeys.

(** struct crypto_aes_key_aesni / _arm: the round keys and nr.  The rkeys
    pointer always points at 15 aligned registers inside the struct (C49). *)
Record hw_key := mk_hwkey { hk_rkeys : list bytes; hk_nr : nat }.

(* crypto_aes_aesni.c:151-183 crypto_aes_key_expand_aesni.  [mem]: does malloc
   succeed; [old]: the 15 uninitialised registers.  None is NULL. *)
Definition crypto_aes_key_expand_aesni (mem : bool) (old : list bytes) (key : bytes) (len : nat)
  : res (option hw_key) :=
  if negb mem then Ok None
  else if Nat.eqb len 16 then
    rk <- key_expand_128_aesni key old ;; Ok (Some (mk_hwkey rk 10))
  else if Nat.eqb len 32 then
    rk <- key_expand_256_aesni key old ;; Ok (Some (mk_hwkey rk 14))
  else Ok None.

(* crypto_aes_aesni.c:200-216: consecutive aesenc with round keys l *)
Definition aesenc_seq (rkeys : list bytes) (l : list nat) (s : bytes) : res bytes :=
  seqm (fun s j => k <- rdv rkeys j ;; Ok (mm_aesenc s k)) l s.
(* crypto_aes_aesni.c:192-219 crypto_aes_encrypt_block_aesni_m128i *)
Definition crypto_aes_encrypt_block_aesni_m128i (inp : bytes) (key : hw_key) : res bytes :=
  k0 <- rdv (hk_rkeys key) 0 ;;
  let s := vxor inp k0 in
  s <- aesenc_seq (hk_rkeys key) [1;2;3;4;5;6;7;8;9]%nat s ;;
  s <- (if Nat.ltb 10 (hk_nr key) then aesenc_seq (hk_rkeys key) [10;11;12;13]%nat s else Ok s) ;;
  k <- rdv (hk_rkeys key) (hk_nr key) ;;
  Ok (mm_aesenclast s k).
(* crypto_aes_aesni.c:228-237 crypto_aes_encrypt_block_aesni *)
Definition crypto_aes_encrypt_block_aesni (inp : bytes) (key : hw_key) : res bytes :=
  s <- vld16 inp 0 ;; crypto_aes_encrypt_block_aesni_m128i s key.

(** ---- ARM ---- *)
(** vaeseq_u8(a, k): AddRoundKey, ShiftRows, SubBytes *)
Definition vaeseq (a k : bytes) : bytes := SubBytes (ShiftRows (vxor a k)).
(** vaesmcq_u8: MixColumns *)
Definition vaesmcq (a : bytes) : bytes := MixColumns a.
(** vdupq_n_u8 *)
Definition vdupq_n_u8 (b : N) : bytes := repeat b 16.
(** vextq_u8(a, b, n): bytes n .. n+15 of a ++ b *)
Definition vextq_u8 (a b : bytes) (n : nat) : bytes := firstn 16 (skipn n (a ++ b)).
(* crypto_aes_arm.c:32-33 vdupq_laneq_u32_u8 *)
Definition vdupq_laneq_u32_u8 (a : bytes) (l : nat) : bytes := lane a l ++ lane a l ++ lane a l ++ lane a l.
(* crypto_aes_arm.c:48 vshlq_n_u128 *)
Definition vshlq_n_u128 (a : bytes) (n : nat) : bytes := vextq_u8 (vdupq_n_u8 0) a (16 - n).
(* crypto_aes_arm.c:55-70 SubWord_duplicate *)
Definition SubWord_duplicate (a : bytes) : bytes :=
  let a := vdupq_laneq_u32_u8 a 3 in
  vaeseq a (vdupq_n_u8 0).
(* crypto_aes_arm.c:78-100 SubWord_RotWord_XOR_duplicate; vgetq_lane_u32 reads a
   little-endian word *)
Definition SubWord_RotWord_XOR_duplicate (a : bytes) (rcon : N) : bytes :=
  let a := SubWord_duplicate a in
  let x3 := le_val (lane a 0) in
  let x3 := N.lor (N.shiftr x3 8) (w32 (N.shiftl x3 (32 - 8))) in
  let x3 := N.lxor x3 rcon in
  le_bytes 4 x3 ++ le_bytes 4 x3 ++ le_bytes 4 x3 ++ le_bytes 4 x3.
(* crypto_aes_arm.c:103-110 MKRKEY128 *)
Definition MKRKEY128_arm (rkeys : list bytes) (i : nat) (rcon : N) : res (list bytes) :=
  s <- rdv rkeys (i - 1) ;;
  t <- rdv rkeys (i - 1) ;;
  let s := vxor s (vshlq_n_u128 s 4) in
  let s := vxor s (vshlq_n_u128 s 8) in
  let t := SubWord_RotWord_XOR_duplicate t rcon in
  wrv rkeys i (vxor s t).
(* crypto_aes_arm.c:119-143 crypto_aes_key_expand_128_arm *)
Definition rcons128_arm : list (nat * N) :=
  [(1%nat, 0x01); (2%nat, 0x02); (3%nat, 0x04); (4%nat, 0x08); (5%nat, 0x10);
   (6%nat, 0x20); (7%nat, 0x40); (8%nat, 0x80); (9%nat, 0x1b); (10%nat, 0x36)].
(* crypto_aes_arm.c:112-143 crypto_aes_key_expand_128_arm *)
Definition key_expand_128_arm (key : bytes) (rkeys : list bytes) : res (list bytes) :=
  k0 <- vld16 key 0 ;;
  rkeys <- wrv rkeys 0 k0 ;;
  seqm (fun rk e => MKRKEY128_arm rk (fst e) (snd e)) rcons128_arm rkeys.
(* crypto_aes_arm.c:146-155 MKRKEY256 *)
Definition MKRKEY256_arm (rkeys : list bytes) (i : nat) (rcon : N) : res (list bytes) :=
  s <- rdv rkeys (i - 2) ;;
  t <- rdv rkeys (i - 1) ;;
  let s := vxor s (vshlq_n_u128 s 4) in
  let s := vxor s (vshlq_n_u128 s 8) in
  let t := if Nat.eqb (i mod 2) 1 then SubWord_duplicate t else SubWord_RotWord_XOR_duplicate t rcon in
  wrv rkeys i (vxor s t).
(* crypto_aes_arm.c:164-192 crypto_aes_key_expand_256_arm *)
Definition rcons256_arm : list (nat * N) :=
  [(2%nat, 0x01); (3%nat, 0x00); (4%nat, 0x02); (5%nat, 0x00); (6%nat, 0x04); (7%nat, 0x00);
   (8%nat, 0x08); (9%nat, 0x00); (10%nat, 0x10); (11%nat, 0x00); (12%nat, 0x20); (13%nat, 0x00);
   (14%nat, 0x40)].
(* crypto_aes_arm.c:157-192 crypto_aes_key_expand_256_arm *)
Definition key_expand_256_arm (key : bytes) (rkeys : list bytes) : res (list bytes) :=
  k0 <- vld16 key 0 ;;
  rkeys <- wrv rkeys 0 k0 ;;
  k1 <- vld16 key 16 ;;
  rkeys <- wrv rkeys 1 k1 ;;
  seqm (fun rk e => MKRKEY256_arm rk (fst e) (snd e)) rcons256_arm rkeys.
(* crypto_aes_arm.c:202-234 crypto_aes_key_expand_arm *)
Definition crypto_aes_key_expand_arm (mem : bool) (old : list bytes) (key : bytes) (len : nat)
  : res (option hw_key) :=
  if negb mem then Ok None
  else if Nat.eqb len 16 then
    rk <- key_expand_128_arm key old ;; Ok (Some (mk_hwkey rk 10))
  else if Nat.eqb len 32 then
    rk <- key_expand_256_arm key old ;; Ok (Some (mk_hwkey rk 14))
  else Ok None.
(* crypto_aes_arm.c:251-265: consecutive vaesmcq(vaeseq) with round keys l *)
Definition aese_seq (rkeys : list bytes) (l : list nat) (s : bytes) : res bytes :=
  seqm (fun s j => k <- rdv rkeys j ;; Ok (vaesmcq (vaeseq s k))) l s.
(* crypto_aes_arm.c:243-272 crypto_aes_encrypt_block_arm_u8 *)
Definition crypto_aes_encrypt_block_arm_u8 (inp : bytes) (key : hw_key) : res bytes :=
  s <- aese_seq (hk_rkeys key) [0;1;2;3;4;5;6;7;8]%nat inp ;;
  s <- (if Nat.ltb 10 (hk_nr key) then aese_seq (hk_rkeys key) [9;10;11;12]%nat s else Ok s) ;;
  k1 <- rdv (hk_rkeys key) (hk_nr key - 1) ;;
  k2 <- rdv (hk_rkeys key) (hk_nr key) ;;
  Ok (vxor (vaeseq s k1) k2).
(* crypto_aes_arm.c:281-290 crypto_aes_encrypt_block_arm *)
Definition crypto_aes_encrypt_block_arm (inp : bytes) (key : hw_key) : res bytes :=
  s <- vld16 inp 0 ;; crypto_aes_encrypt_block_arm_u8 s key.
