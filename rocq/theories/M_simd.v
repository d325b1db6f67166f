(** 128-bit vector registers and the SIMD intrinsics used by the code, per the
    vendor manuals (Intel Intrinsics Guide / SDM; Arm ARM).  These definitions
    are part of the trusted base: they model the CPU, not code in /repo.
    A register is its four 32-bit lanes, x0 being bits 31..0. *)
From Verif Require Import Base SpecBytes.

Inductive v4 : Type := V4 (x0 x1 x2 x3 : N).
Definition vlane (v : v4) (i : N) : N :=
  match v with V4 a b c d =>
    match i with 0 => a | 1 => b | 2 => c | _ => d end end.
Definition vmap (f : N -> N) (v : v4) : v4 :=
  match v with V4 a b c d => V4 (f a) (f b) (f c) (f d) end.
Definition vmap2 (f : N -> N -> N) (v w : v4) : v4 :=
  match v, w with V4 a b c d, V4 a' b' c' d' => V4 (f a a') (f b b') (f c c') (f d d') end.
Definition vwords (v : v4) : list N := match v with V4 a b c d => [a; b; c; d] end.
Definition vwords_ok (v : v4) : Prop := words_ok (vwords v).

(** _mm_loadu_si128 from an array of uint32_t / vld1q_u32 (little-endian x86/ARM) *)
Definition vload32 (p : list N) (o : nat) : res v4 :=
  l <- rd p o 4 ;; Ok (V4 (sel l 0) (sel l 1) (sel l 2) (sel l 3)).
(** _mm_storeu_si128 to an array of uint32_t / vst1q_u32 *)
Definition vstore32 (p : list N) (o : nat) (v : v4) : res (list N) := wr p o (vwords v).
(** _mm_loadu_si128 from an array of bytes / vld1q_u8 (lanes little-endian) *)
Definition vload8 (p : bytes) (o : nat) : res v4 :=
  l <- rd p o 16 ;;
  Ok (V4 (le_val (sub l 0 4)) (le_val (sub l 4 4)) (le_val (sub l 8 4)) (le_val (sub l 12 4))).
(** _mm_storeu_si128 to bytes *)
Definition vbytes (v : v4) : bytes := flat_map (le_bytes 4) (vwords v).

Definition mm_or (a b : v4) := vmap2 N.lor a b.
Definition mm_xor (a b : v4) := vmap2 N.lxor a b.
Definition mm_add_epi32 (a b : v4) := vmap2 add32 a b.
Definition mm_srli_epi32 (a : v4) (n : N) := vmap (fun x => N.shiftr x n) a.
Definition mm_slli_epi32 (a : v4) (n : N) := vmap (fun x => w32 (N.shiftl x n)) a.
(** 16-bit lanes: each 32-bit lane is two of them *)
Definition halves (f : N -> N) (x : N) : N := f (N.land x 0xffff) + 0x10000 * f (N.shiftr x 16).
Definition mm_slli_epi16 (a : v4) (n : N) :=
  vmap (halves (fun h => N.land (N.shiftl h n) 0xffff)) a.
Definition mm_srli_epi16 (a : v4) (n : N) := vmap (halves (fun h => N.shiftr h n)) a.
(** _mm_shuffle_epi32(a, imm): lane i of the result is lane imm[2i+1:2i] of a *)
Definition imm2 (imm : N) (i : N) : N := N.land (N.shiftr imm (2 * i)) 3.
Definition mm_shuffle_epi32 (a : v4) (imm : N) : v4 :=
  V4 (vlane a (imm2 imm 0)) (vlane a (imm2 imm 1)) (vlane a (imm2 imm 2)) (vlane a (imm2 imm 3)).
(** _MM_SHUFFLE(z,y,x,w) = z<<6 | y<<4 | x<<2 | w *)
Definition MM_SHUFFLE (z y x w : N) : N :=
  N.lor (N.lor (N.lor (N.shiftl z 6) (N.shiftl y 4)) (N.shiftl x 2)) w.
(** _mm_shufflelo_epi16 / _mm_shufflehi_epi16 *)
Definition h16 (lo hi : N) (i : N) : N :=
  match i with
  | 0 => N.land lo 0xffff | 1 => N.shiftr lo 16
  | 2 => N.land hi 0xffff | _ => N.shiftr hi 16 end.
Definition shuf16 (lo hi imm : N) : N * N :=
  (h16 lo hi (imm2 imm 0) + 0x10000 * h16 lo hi (imm2 imm 1),
   h16 lo hi (imm2 imm 2) + 0x10000 * h16 lo hi (imm2 imm 3)).
Definition mm_shufflelo_epi16 (a : v4) (imm : N) : v4 :=
  match a with V4 a0 a1 a2 a3 =>
    let '(x, y) := shuf16 a0 a1 imm in V4 x y a2 a3 end.
Definition mm_shufflehi_epi16 (a : v4) (imm : N) : v4 :=
  match a with V4 a0 a1 a2 a3 =>
    let '(x, y) := shuf16 a2 a3 imm in V4 a0 a1 x y end.
(** _mm_srli_epi64: two 64-bit lanes *)
Definition shr64 (n : N) (lo hi : N) : N * N :=
  let q := N.shiftr (lo + 0x100000000 * hi) n in (w32 q, N.shiftr q 32).
Definition mm_srli_epi64 (a : v4) (n : N) : v4 :=
  match a with V4 a0 a1 a2 a3 =>
    let '(x, y) := shr64 n a0 a1 in let '(z, w) := shr64 n a2 a3 in V4 x y z w end.
(** _mm_slli_si128(a, 4k) and _mm_srli_si128(a, 4k): byte shifts by whole lanes *)
Definition mm_slli_si128_8 (a : v4) : v4 := match a with V4 a0 a1 _ _ => V4 0 0 a0 a1 end.
Definition mm_srli_si128_8 (a : v4) : v4 := match a with V4 _ _ a2 a3 => V4 a2 a3 0 0 end.
Definition mm_slli_si128_4 (a : v4) : v4 := match a with V4 a0 a1 a2 _ => V4 0 a0 a1 a2 end.
(** _mm_move_ss(a, b): low lane from b, the rest from a *)
Definition mm_move_ss (a b : v4) : v4 :=
  match a, b with V4 _ a1 a2 a3, V4 b0 _ _ _ => V4 b0 a1 a2 a3 end.
(** _mm_unpacklo_epi64(a,b) = a.low64 : b.low64 (a in the low half);
    _mm_unpackhi_epi64 likewise with the high halves *)
Definition mm_unpacklo_epi64 (a b : v4) : v4 :=
  match a, b with V4 a0 a1 _ _, V4 b0 b1 _ _ => V4 a0 a1 b0 b1 end.
Definition mm_unpackhi_epi64 (a b : v4) : v4 :=
  match a, b with V4 _ _ a2 a3, V4 _ _ b2 b3 => V4 a2 a3 b2 b3 end.
(** _mm_alignr_epi8(a, b, 4): bits [159:32] of a:b *)
Definition mm_alignr_epi8_4 (a b : v4) : v4 :=
  match a, b with V4 a0 _ _ _, V4 _ b1 b2 b3 => V4 b1 b2 b3 a0 end.
(** byte reversal within each 32-bit lane: _mm_shuffle_epi8 with the control
    {3,2,1,0, 7,6,5,4, 11,10,9,8, 15,14,13,12} (as bytes 0..15), and vrev32q_u8 *)
Definition mm_shuffle_epi8 (a : v4) (ctl : list nat) : v4 :=
  let l := vbytes a in
  let r := map (fun i => sel l i) ctl in
  V4 (le_val (sub r 0 4)) (le_val (sub r 4 4)) (le_val (sub r 8 4)) (le_val (sub r 12 4)).
