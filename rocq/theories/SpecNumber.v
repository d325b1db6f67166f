(** Numbers written as text: the form described in parsenum.h ("optional
    whitespace followed by a number (and nothing else)"), with the C notation of
    integers (ISO C 6.4.4.1 and 7.22.1.4). *)
From Verif Require Import Base.

(** White space of the C locale: space, \t \n \v \f \r. *)
Definition is_space (c : N) : Prop := c = 32 \/ 9 <= c <= 13.
(** [is_digit_of b c d]: the character c is the digit d of base b. *)
Definition is_digit_of (b c d : N) : Prop :=
  d < b /\ (48 <= c <= 57 /\ d = c - 48 \/ 97 <= c <= 122 /\ d = c - 87 \/ 65 <= c <= 90 /\ d = c - 55).
(** [digits b s v]: s is a non-empty string of base-b digits with value v. *)
Inductive digits (b : N) : list N -> N -> Prop :=
| digits_one c d : is_digit_of b c d -> digits b [c] d
| digits_snoc s v c d : digits b s v -> is_digit_of b c d -> digits b (s ++ [c]) (b * v + d).
(** An unsigned integer: in the given base, or (base 0) as a C constant. *)
Inductive magnitude (base : N) (s : list N) (v : N) : Prop :=
| mag_base : base <> 0 -> digits base s v -> magnitude base s v
| mag_hex p q : base = 0 \/ base = 16 -> p = 120 \/ p = 88 -> s = 48 :: p :: q -> digits 16 q v -> magnitude base s v
| mag_octal q : base = 0 -> s = 48 :: q -> digits 8 s v -> magnitude base s v
| mag_decimal c q : base = 0 -> c <> 48 -> s = c :: q -> digits 10 s v -> magnitude base s v.
(** Optional white space, optional sign, magnitude. *)
Inductive integer (base : N) (s : list N) (neg : bool) (v : N) : Prop :=
| integer_intro ws sg m : Forall is_space ws ->
    (neg = false /\ (sg = [] \/ sg = [43]) \/ neg = true /\ sg = [45]) ->
    magnitude base m v -> s = ws ++ sg ++ m -> integer base s neg v.
Definition signed (neg : bool) (v : N) : Z := if neg then (- Z.of_N v)%Z else Z.of_N v.
(** What strtoumax makes of a sign: the number modulo 2^64. *)
Definition wrapped (neg : bool) (v : N) : N := if neg then (2 ^ 64 - v) mod 2 ^ 64 else v.
