(** How a machine number compares with a mathematical one. *)
From Coq Require Import Reals.
From Flocq Require Import Core IEEE754.BinarySingleNaN.
From Verif Require Import Base M_double.

(** The number q is at most the double x (x is +infinity, or finite and at least q). *)
Definition at_most (q : R) (x : double) : Prop :=
  x = dinf \/ (is_finite x = true /\ (q <= B2R x)%R).
(** The natural number n is at most the double x. *)
Definition fits (n : N) (x : double) : Prop := at_most (IZR (Z.of_N n)) x.
