(** Model of libcperciva/util/insecure_memzero.c. *)
From Verif Require Import Base.

(* insecure_memzero.c:8-16 insecure_memzero_func: for (i = 0; i < len; i++) _buf[i] = 0;
   from index i on, [n] bytes left.  [buf] is the object pointed to, so that
   writing past its end is undefined.  The call through the volatile pointer
   insecure_memzero_ptr (18-20) is taken to reach this function. *)
Fixpoint memzero_loop (n i : nat) (buf : bytes) : res bytes :=
  match n with
  | O => Ok buf
  | S n' => buf <- wr buf i [0] ;; memzero_loop n' (S i) buf
  end.
(* insecure_memzero.h:30-35 insecure_memzero *)
Definition insecure_memzero (buf : bytes) (len : nat) : res bytes := memzero_loop len 0 buf.
