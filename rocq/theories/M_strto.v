(** The C library's strtoimax and strtoumax (ISO C 7.22.1.4, 7.8.2.3; C locale,
    64-bit intmax_t), as used by libcperciva/util/parsenum.h.  strtod is a
    parameter. *)
From Verif Require Import Base M_double.

(* <errno.h> *)
Definition EINVAL : N := 22.
(* <errno.h> *)
Definition ERANGE : N := 34.
(* isspace in the C locale *)
Definition isspace (c : N) : bool := (c =? 32) || ((9 <=? c) && (c <=? 13)).
(* leading white space (C11 7.22.1.4) *)
Fixpoint skip_space (s : bytes) : bytes :=
  match s with c :: s' => if isspace c then skip_space s' else s | [] => [] end.
(* the value of a digit or letter *)
Definition digit_of (c : N) : option N :=
  if (48 <=? c) && (c <=? 57) then Some (c - 48)
  else if (97 <=? c) && (c <=? 122) then Some (c - 87)
  else if (65 <=? c) && (c <=? 90) then Some (c - 55)
  else None.
Definition digit_in (b c : N) : option N :=
  match digit_of c with Some d => if d <? b then Some d else None | None => None end.
(** Consume digits of base b: the value and the rest of the string. *)
Fixpoint scan_digits (b acc : N) (s : bytes) : N * bytes :=
  match s with
  | c :: s' => match digit_in b c with Some d => scan_digits b (b * acc + d) s' | None => (acc, s) end
  | [] => (acc, [])
  end.
Definition is_x (c : N) : bool := (c =? 120) || (c =? 88).
(** The base in effect and the digits, after the optional 0x. *)
Definition strto_prefix (base : N) (s : bytes) : N * bytes :=
  match s with
  | z :: x :: h :: t =>
      if ((base =? 0) || (base =? 16)) && (z =? 48) && is_x x && match digit_in 16 h with Some _ => true | None => false end
      then (16, h :: t)
      else if base =? 0 then (if z =? 48 then 8 else 10, s) else (base, s)
  | z :: _ => if base =? 0 then (if z =? 48 then 8 else 10, s) else (base, s)
  | [] => (if base =? 0 then 10 else base, s)
  end.
(** None: no conversion (the end pointer is the start); otherwise sign,
    magnitude, rest of the string. *)
Definition strto_scan (base : N) (s : bytes) : option (bool * N * bytes) :=
  let s := skip_space s in
  let '(neg, s) := match s with c :: s' => if c =? 45 then (true, s') else if c =? 43 then (false, s') else (false, s) | [] => (false, []) end in
  let '(b, s) := strto_prefix base s in
  match s with
  | c :: _ => match digit_in b c with
              | Some _ => let '(v, rest) := scan_digits b 0 s in Some (neg, v, rest)
              | None => None
              end
  | [] => None
  end.
(** strtoimax: value, rest (None: no conversion), errno if set. *)
Definition INTMAX_MAX : Z := (2 ^ 63 - 1)%Z.
Definition INTMAX_MIN : Z := (- 2 ^ 63)%Z.
(* C11 7.8.2.3 strtoimax: value, rest of the string (None: no conversion), errno if set *)
Definition strtoimax (s : bytes) (base : N) : Z * option bytes * option N :=
  match strto_scan base s with
  | None => (0%Z, None, None)
  | Some (neg, v, rest) =>
      let z := if neg then (- Z.of_N v)%Z else Z.of_N v in
      if (INTMAX_MAX <? z)%Z then (INTMAX_MAX, Some rest, Some ERANGE)
      else if (z <? INTMAX_MIN)%Z then (INTMAX_MIN, Some rest, Some ERANGE)
      else (z, Some rest, None)
  end.
(** strtoumax: the negation is in the unsigned type. *)
Definition UINTMAX_MAX : N := 0xffffffffffffffff.
(* C11 7.8.2.3 strtoumax *)
Definition strtoumax (s : bytes) (base : N) : N * option bytes * option N :=
  match strto_scan base s with
  | None => (0, None, None)
  | Some (neg, v, rest) =>
      if UINTMAX_MAX <? v then (UINTMAX_MAX, Some rest, Some ERANGE)
      else ((if neg then w64 (2 ^ 64 - v) else v), Some rest, None)
  end.
(** strtod: value, number of characters converted (0: no conversion), errno. *)
Definition strtod_fn := bytes -> double * nat * option N.
