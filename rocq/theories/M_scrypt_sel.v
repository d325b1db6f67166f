(** Model of lib-platform/crypto/crypto_scrypt.c:168-257: self-test driven
    selection of the smix routine, and crypto_scrypt itself.

    The two smix routines are parameters, so that a machine whose SSE2 unit
    (or whose generic code) misbehaves is covered too. *)
From Verif Require Import Base M_endian M_sha256_tr M_simd M_sha256_hw M_sha256 M_smix.

(* crypto_scrypt.c:168-193 testcase *)
Definition test_passwd : bytes :=   (* "pleaseletmein" *)
  [0x70; 0x6c; 0x65; 0x61; 0x73; 0x65; 0x6c; 0x65; 0x74; 0x6d; 0x65; 0x69; 0x6e].
Definition test_salt : bytes :=     (* "SodiumChloride" *)
  [0x53; 0x6f; 0x64; 0x69; 0x75; 0x6d; 0x43; 0x68; 0x6c; 0x6f; 0x72; 0x69; 0x64; 0x65].
(* crypto_scrypt.c:182-191 testcase.result *)
Definition test_result : bytes :=
  [0x25; 0xa9; 0xfa; 0x20; 0x7f; 0x87; 0xca; 0x09;
   0xa4; 0xef; 0x8b; 0x9f; 0x77; 0x7a; 0xca; 0x16;
   0xbe; 0xb7; 0x84; 0xae; 0x18; 0x30; 0xbf; 0xbf;
   0xd3; 0x83; 0x25; 0xaa; 0xbb; 0x93; 0x77; 0xdf;
   0x1b; 0xa7; 0x84; 0xd7; 0x46; 0xea; 0x27; 0x3b;
   0xf5; 0x16; 0xa4; 0x6f; 0xbf; 0xac; 0xf5; 0x11;
   0xc5; 0xbe; 0xba; 0x4c; 0x4a; 0xb3; 0xac; 0xc7;
   0xfa; 0x6f; 0x46; 0x0b; 0x6c; 0x0f; 0x47; 0x7b].

(** The value of smix_func (crypto_scrypt.c:52): NULL or one of two routines. *)
Inductive smix_choice := CHOICE_SSE2 | CHOICE_GENERIC.
(* crypto_scrypt.c:52 smix_func, None being NULL *)
Definition smix_state := option smix_choice.

Section Select.
  (** [szb]: size_t width; [sse2_built]: CPUSUPPORT_X86_SSE2 was defined at
      compile time; [cpu_sse2]: what cpusupport_x86_sse2() returns. *)
  Context (szb : N) (hw : sha_hw) (junk : nat -> N) (sse2_built cpu_sse2 : bool)
          (f_sse2 f_generic : smix_fn).
  (* the routine a non-NULL smix_func points to *)
  Definition smix_of (c : smix_choice) : smix_fn :=
    match c with CHOICE_SSE2 => f_sse2 | CHOICE_GENERIC => f_generic end.
  (* crypto_scrypt.c:195-209 testsmix: true if it returns 0 *)
  Definition testsmix (env : alloc_env) (f : smix_fn) : res bool :=
    ' (rc, hbuf) <- crypto_scrypt_internal szb hw junk f env test_passwd test_salt 16 8 1
                      (scratch_bytes junk 64) 64 ;;
    match rc with
    | SC_OK => Ok (list_eqb test_result hbuf)
    | _ => Ok false
    end.
  (* crypto_scrypt.c:211-236 selectsmix; env1, env2: allocator behaviour during
     the SSE2 and the generic self-test *)
  Definition selectsmix_generic (env2 : alloc_env) : res smix_choice :=
    ok <- testsmix env2 f_generic ;;
    if ok then Ok CHOICE_GENERIC else Abort.
  (* crypto_scrypt.c:210-235 selectsmix *)
  Definition selectsmix (env1 env2 : alloc_env) : res smix_choice :=
    if sse2_built && cpu_sse2 then
      ok <- testsmix env1 f_sse2 ;;
      if ok then Ok CHOICE_SSE2 else selectsmix_generic env2
    else selectsmix_generic env2.
  (** One call: its arguments and the allocator behaviour during it. *)
  Record scrypt_call := mk_call {
    k_env1 : alloc_env; k_env2 : alloc_env; k_env : alloc_env;
    k_passwd : bytes; k_salt : bytes; k_N : N; k_r : N; k_p : N; k_buf : bytes; k_buflen : N }.
  (* crypto_scrypt.c:246-257 crypto_scrypt *)
  Definition crypto_scrypt (st : smix_state) (k : scrypt_call)
    : res (scrypt_rc * bytes * smix_state) :=
    c <- match st with Some c => Ok c | None => selectsmix (k_env1 k) (k_env2 k) end ;;
    ' (rc, buf) <- crypto_scrypt_internal szb hw junk (smix_of c) (k_env k)
                     (k_passwd k) (k_salt k) (k_N k) (k_r k) (k_p k) (k_buf k) (k_buflen k) ;;
    Ok (rc, buf, Some c).
  (** A history of calls: the results and the final state. *)
  Fixpoint scrypt_history (st : smix_state) (ks : list scrypt_call)
    : res (list (scrypt_rc * bytes) * smix_state) :=
    match ks with
    | [] => Ok ([], st)
    | k :: ks' =>
        ' (rc, buf, st) <- crypto_scrypt st k ;;
        ' (outs, st) <- scrypt_history st ks' ;;
        Ok ((rc, buf) :: outs, st)
    end.
End Select.
