(** Model of libcperciva/util/align_ptr.h and of the alignment fall-back in
    crypto_scrypt.c.  Addresses are numbers; a buffer is an address range. *)
From Verif Require Import Base.

(* align_ptr.h:15-17 ALIGN_PTR_DECL: the size of the buffer declared for [num]
   elements of [size] bytes *)
Definition align_buf_size (num size alignment : N) : N := num * size + (alignment - 1).
(* align_ptr.h:36-50 align_ptr: the address returned for the buffer at [arr] *)
Definition align_ptr (arr alignment : N) : N :=
  let offset := arr mod alignment in
  let offset := (alignment - offset) mod alignment in
  arr + offset.
(* crypto_scrypt.c:110-119 (neither MAP_ANON nor posix_memalign): [n + 63]
   bytes are allocated and ((uintptr_t)p + 63) & ~(uintptr_t)63 is used, for
   [w]-bit pointers *)
Definition align64_size (n : N) : N := n + 63.
(* crypto_scrypt.c:110-119 (#else branch): (p + 63) & ~ (uintptr_t)(63) *)
Definition align64 (w p : N) : N := N.land ((p + 63) mod 2 ^ w) (2 ^ w - 1 - 63).
