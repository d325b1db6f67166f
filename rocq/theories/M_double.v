(** C's double as IEEE 754 binary64 with round-to-nearest-even arithmetic and
    no excess precision (FLT_EVAL_METHOD = 0), on top of Flocq. *)
From Coq Require Import ZArith.
From Flocq Require Import Core IEEE754.BinarySingleNaN.
From Verif Require Import Base.

Definition double := binary_float 53 1024.
Definition prec_gt_0_53 : Prec_gt_0 53 := eq_refl.
Definition prec_lt_emax_53 : Prec_lt_emax 53 1024 := eq_refl.
#[global] Existing Instance prec_gt_0_53.
#[global] Existing Instance prec_lt_emax_53.

(** x * y, x / y, x + y *)
Definition dmul (x y : double) : double := Bmult mode_NE x y.
Definition ddiv (x y : double) : double := Bdiv mode_NE x y.
Definition dadd (x y : double) : double := Bplus mode_NE x y.
(** Conversion of an integer to double, rounding to nearest (C11 6.3.1.4). *)
Definition of_Z (z : Z) : double := binary_normalize 53 1024 _ _ mode_NE z 0 false.
Definition of_N (n : N) : double := of_Z (Z.of_N n).
(** x < y, x <= y, x == y: false if an operand is a NaN. *)
Definition dlt (x y : double) : bool := Bltb x y.
Definition dle (x y : double) : bool := Bleb x y.
Definition deq (x y : double) : bool := Beqb x y.
(** Conversion to an unsigned integer type of [bits] bits: truncation; undefined
    if the truncated value is not representable (C11 6.3.1.4). *)
Definition to_uint (bits : N) (x : double) : res N :=
  if is_finite x && (0 <=? Btrunc x)%Z && (Btrunc x <? 2 ^ Z.of_N bits)%Z
  then Ok (Z.to_N (Btrunc x)) else UB.
Definition d0 : double := B754_zero false.
Definition d1 : double := of_N 1.
Definition dinf : double := B754_infinity false.
Definition dnan : double := B754_nan.
(** The literals 0.000001, 0.000000001, 0.5, 0.125: the double nearest to the
    decimal value (a division of exactly representable integers). *)
Definition d1em6 : double := ddiv d1 (of_N 1000000).
Definition d1em9 : double := ddiv d1 (of_N 1000000000).
Definition d0_5 : double := ddiv d1 (of_N 2).
Definition d0_125 : double := ddiv d1 (of_N 8).
(** A value is a number (not NaN). *)
Definition is_number (x : double) : Prop := is_nan x = false.

Example double_half : to_uint 64 (dmul d0_5 (of_N 0xffffffffffffffff)) = Ok 0x8000000000000000.
Proof. vm_compute. reflexivity. Qed.
Example double_casts : to_uint 32 dnan = UB /\ to_uint 64 (of_N 0xffffffffffffffff) = UB.
Proof. vm_compute. split; reflexivity. Qed.
