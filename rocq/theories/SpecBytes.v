(** Positional byte encodings (specification). *)
From Verif Require Import Base.

(** Value of a big-endian byte string. *)
Definition be_val (l : bytes) : N := fold_left (fun acc b => acc * 256 + b) l 0.
(** Value of a little-endian byte string. *)
Fixpoint le_val (l : bytes) : N :=
  match l with [] => 0 | b :: t => b + 256 * le_val t end.
(** The [n]-byte big-endian encoding of [x] (mod 256^n). *)
Fixpoint be_bytes (n : nat) (x : N) : bytes :=
  match n with O => [] | S m => be_bytes m (x / 256) ++ [x mod 256] end.
(** The [n]-byte little-endian encoding of [x] (mod 256^n). *)
Fixpoint le_bytes (n : nat) (x : N) : bytes :=
  match n with O => [] | S m => (x mod 256) :: le_bytes m (x / 256) end.
