(** Text: C strings are byte lists without the terminating NUL. *)
From Verif Require Import Base.

Definition is_digit (c : N) : bool := (48 <=? c) && (c <=? 57).
(** Value of a string of decimal digits. *)
Definition dec_val (s : bytes) : N := fold_left (fun a c => 10 * a + (c - 48)) s 0.
(** [decimal n s]: s is the usual decimal notation of n (digits, no superfluous
    leading zero). *)
Definition decimal (n : N) (s : bytes) : Prop :=
  s <> [] /\ forallb is_digit s = true /\ dec_val s = n /\ (hd 0 s = 48 -> s = [48]).

(** SI prefixes: k-th power of 1000. *)
Definition si_prefix (k : N) : N :=
  match k with 1 => 107 | 2 => 77 | 3 => 71 | 4 => 84 | 5 => 80 | 6 => 69 | _ => 0 end.  (* k M G T P E *)

(** humansize.h: "<N> B" for 0 <= N <= 999 or "<X> <prefix>B" where either
    10 <= X <= 999 or 1.0 <= X <= 9.9; with the number of bytes denoted. *)
Inductive human (v : N) (s : bytes) : Prop :=
| human_B n d : n <= 999 -> decimal n d -> v = n -> s = d ++ [32; 66] -> human v s
| human_int k X d : 1 <= k <= 6 -> 10 <= X <= 999 -> decimal X d ->
    v = X * 1000 ^ k -> s = d ++ [32; si_prefix k; 66] -> human v s
| human_dec k I F d e : 1 <= k <= 6 -> 1 <= I <= 9 -> F <= 9 -> decimal I d -> decimal F e ->
    v = (10 * I + F) * (1000 ^ k / 10) -> s = d ++ [46] ++ e ++ [32; si_prefix k; 66] -> human v s.

(** The grammar [0-9]+ ?[kMGTPE]?B? with its value digits * 1000^k. *)
Definition human_grammar (s : bytes) (v : N) : Prop :=
  exists digits sp k pre b,
    digits <> [] /\ forallb is_digit digits = true /\
    (sp = [] \/ sp = [32]) /\
    (k = 0 /\ pre = [] \/ 1 <= k <= 6 /\ pre = [si_prefix k]) /\
    (b = [] \/ b = [66]) /\
    s = digits ++ sp ++ pre ++ b /\
    v = dec_val digits * 1000 ^ k.
