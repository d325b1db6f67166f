(** Model of libcperciva/util/parsenum.h.  [s] is a C string (no NUL).  The
    results carry errno: 0 is success. *)
From Verif Require Import Base M_double M_strto.

(* errno, 0 if the call did not set it *)
Definition errno_of (e : option N) : N := match e with Some x => x | None => 0 end.
(* parsenum.h:142-157 parsenum_float; errno was set to 0 by the macro *)
Definition parsenum_float (strtod : strtod_fn) (s : bytes) (min max : double) (trailing : bool) : double * N :=
  let '(val, n, e) := strtod s in
  if Nat.eqb n 0 || (negb trailing && negb (Nat.eqb n (length s))) then (val, EINVAL)
  else if dlt val min || dlt max val then (val, ERANGE)
  else (val, errno_of e).
(* parsenum.h:159-177 parsenum_signed *)
Definition parsenum_signed (s : bytes) (min max : Z) (base : N) (trailing : bool) : Z * N :=
  let '(val, eptr, e) := strtoimax s base in
  match eptr with
  | None => (val, EINVAL)
  | Some rest =>
      if negb trailing && negb (match rest with [] => true | _ => false end) then (val, EINVAL)
      else if (val <? min)%Z || (max <? val)%Z then (0%Z, ERANGE)
      else (val, errno_of e)
  end.
(* parsenum.h:179-195 parsenum_unsigned *)
Definition parsenum_unsigned (s : bytes) (min max typemax : N) (base : N) (trailing : bool) : N * N :=
  let '(val, eptr, e) := strtoumax s base in
  match eptr with
  | None => (val, EINVAL)
  | Some rest =>
      if negb trailing && negb (match rest with [] => true | _ => false end) then (val, EINVAL)
      else if (val <? min) || (max <? val) || (typemax <? val) then (val, ERANGE)
      else (val, errno_of e)
  end.
(** Conversion of a constant to uintmax_t. *)
Definition to_uintmax (z : Z) : N := Z.to_N (z mod 2 ^ 64).
(* parsenum.h:104-130 PARSENUM_EX6 for a floating-point variable (line 108:
   1/2 > 0), with base 0 *)
Definition PARSENUM_float (strtod : strtod_fn) (s : bytes) (min max : double) : double * N := parsenum_float strtod s min max false.
(* parsenum.h:115-119 for a variable of a signed integer type of [bits] bits:
   the value stored and errno.  Simplification: if the value does not fit in the
   type the stored value is shown as 0 (only if max exceeds the type's range). *)
Definition PARSENUM_signed (bits : Z) (s : bytes) (min max : Z) (base : N) : Z * N :=
  let '(v, e) := parsenum_signed s min max base false in
  ((if (- 2 ^ (bits - 1) <=? v)%Z && (v <? 2 ^ (bits - 1))%Z then v else 0%Z), e).
(* parsenum.h:120-127 for a variable of an unsigned type of [bits] bits; the
   assignment reduces modulo 2^bits *)
Definition PARSENUM_unsigned (bits : N) (s : bytes) (min max : Z) (base : N) : N * N :=
  let '(v, e) := parsenum_unsigned s (if (min <=? 0)%Z then 0 else to_uintmax min) (to_uintmax max) (2 ^ bits - 1) base false in
  (v mod 2 ^ bits,
   if (max <=? INTMAX_MAX)%Z then if (max <? 0)%Z && (e =? 0) then ERANGE else e else e).
(* parsenum.h:85-103 PARSENUM_EX4 for an unsigned type: no bounds given *)
Definition PARSENUM_unsigned_nobounds (bits : N) (s : bytes) (base : N) : N * N :=
  let '(v, e) := parsenum_unsigned s 0 (2 ^ bits - 1) (2 ^ bits - 1) base false in (v mod 2 ^ bits, e).
