(** Model of libcperciva/crypto/crypto_verify_bytes.c. *)
From Verif Require Import Base.

(* crypto_verify_bytes.c:16-17: the loop, from index i on; [n] iterations *)
Fixpoint verify_loop (n i : nat) (buf0 buf1 : bytes) (rc : N) : res N :=
  match n with
  | O => Ok rc
  | S n' =>
      a <- rd buf0 i 1 ;; b <- rd buf1 i 1 ;;
      verify_loop n' (S i) buf0 buf1 (w8 (N.lor rc (N.lxor (sel a 0) (sel b 0))))
  end.
(* crypto_verify_bytes.c:11-21 *)
Definition crypto_verify_bytes (buf0 buf1 : bytes) (len : nat) : res N :=
  verify_loop len 0 buf0 buf1 0.

(** The same loop recording the indices it reads, to state that the accesses
    do not depend on the data. *)
Fixpoint verify_trace (n i : nat) (buf0 buf1 : bytes) (rc : N) : list nat * res N :=
  match n with
  | O => ([], Ok rc)
  | S n' =>
      match rd buf0 i 1, rd buf1 i 1 with
      | Ok a, Ok b =>
          let '(t, r) := verify_trace n' (S i) buf0 buf1 (w8 (N.lor rc (N.lxor (sel a 0) (sel b 0)))) in
          (i :: t, r)
      | _, _ => ([i], UB)
      end
  end.
