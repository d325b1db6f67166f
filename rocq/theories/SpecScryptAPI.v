(** What a caller of crypto_scrypt may rely on: which parameters are valid,
    and the exact function computed also for p > 2^25. *)
From Verif Require Import Base SpecBytes SpecSHA SpecScrypt.

(** The parameters for which crypto_scrypt is meant to work, given the width
    [szb] of size_t in bits: positive r and p, N a power of two above 1, the
    limits of RFC 7914 and sizes representable in a size_t. *)
Record scrypt_valid (szb N_ r p buflen : N) : Prop := mk_valid {
  v_r : 0 < r;
  v_p : 0 < p;
  v_N : exists lg, 1 <= lg < 64 /\ N_ = 2 ^ lg;
  v_rp : r * p < 2 ^ 30;
  v_len : buflen <= (2 ^ 32 - 1) * 32;
  v_B : 128 * r * p < 2 ^ szb;
  v_XY : 256 * r + 64 < 2 ^ szb;
  v_V : 128 * r * N_ < 2 ^ szb }.

(** How often block j is run through scryptROMix when the block offset
    i * 128 * r is computed with a 32-bit i * 128, i.e. when iteration i
    works on block i mod 2^25. *)
Definition mix_count (p j : N) : N := if j <? 2 ^ 25 then (p + (2 ^ 25 - 1) - j) / 2 ^ 25 else 0.
(** [bs] with block number j (from [j0] on) replaced by [f j b]. *)
Fixpoint mapi {A B} (f : N -> A -> B) (j0 : N) (bs : list A) : list B :=
  match bs with [] => [] | b :: t => f j0 b :: mapi f (j0 + 1) t end.
(** RFC 7914 scrypt with block j mixed mix_count p j times instead of once. *)
Definition scrypt_wrapping (P S_ : bytes) (N_ r p : N) (dkLen : nat) : bytes :=
  let B := chunks (N.to_nat (128 * r)) (pbkdf2 P S_ 1 (N.to_nat (p * 128 * r))) in
  let B' := concat (mapi (fun j b => N.iter (mix_count p j) (scryptROMix N_) b) 0 B) in
  pbkdf2 P B' 1 dkLen.
