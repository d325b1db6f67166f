(** Model of libcperciva/alg/sha256.c: streaming SHA-256, HMAC, PBKDF2. *)
From Verif Require Import Base M_endian M_sha256_tr M_simd M_sha256_hw.

(* sha256.c:20-32: the static variable hwaccel, after hwaccel_init *)
Inductive sha_hw := HW_SOFTWARE | HW_X86_SHANI | HW_X86_SSE2 | HW_ARM_SHA256.

(* sha256.c:232-321 SHA256_Transform: dispatch on hwaccel.  [W] is the scratch
   array tmp32[0..63]. *)
Definition SHA256_Transform (hw : sha_hw) (state : list N) (block : bytes) (W : list N)
  : res (list N) :=
  match hw with
  | HW_X86_SHANI => SHA256_Transform_shani state block
  | HW_X86_SSE2 => SHA256_Transform_sse2 state block W
  | HW_ARM_SHA256 => SHA256_Transform_arm state block
  | HW_SOFTWARE => SHA256_Transform_sw state block W
  end.

(* sha256.h:23-27 SHA256_CTX *)
Record sha_ctx := mk_sha { c_state : list N; c_count : N; c_buf : bytes }.

(** Scratch memory: automatic arrays hold arbitrary values when a function is
    entered.  A single oracle [junk : nat -> N] stands for them; every theorem
    quantifies over it. *)
Definition scratch_words (junk : nat -> N) (n : nat) : list N := map (fun i => w32 (junk i)) (seq 0 n).
(* an uninitialised array of uint8_t *)
Definition scratch_bytes (junk : nat -> N) (n : nat) : bytes := map (fun i => w8 (junk i)) (seq 0 n).

(* sha256.c:323-328 PAD *)
Definition PAD : bytes := 0x80 :: repeat 0 63.

Section WithMachine.
  (** [hw]: which transform is in use; [junk]: contents of uninitialised memory. *)
  Context (hw : sha_hw) (junk : nat -> N).
  (* tmp32[0..63] (sha256.c:423-434 and others): uninitialised *)
  Definition tmpW : list N := scratch_words junk 64.
  (* SHA256_Transform(state, block, &tmp32[0], &tmp32[64]) (sha256.c:232-321) *)
  Definition transform (state : list N) (block : bytes) : res (list N) :=
    SHA256_Transform hw state block tmpW.

  (* sha256.c:331-357 SHA256_Pad *)
  Definition SHA256_Pad (ctx : sha_ctx) : res sha_ctx :=
    let r := N.to_nat (N.land (N.shiftr (c_count ctx) 3) 0x3f) in
    ' (state, buf) <-
      (if Nat.ltb r 56 then
         pad <- rd PAD 0 (56 - r) ;;
         buf <- wr (c_buf ctx) r pad ;;
         Ok (c_state ctx, buf)
       else
         pad <- rd PAD 0 (64 - r) ;;
         buf <- wr (c_buf ctx) r pad ;;
         blk <- rd buf 0 64 ;;
         state <- transform (c_state ctx) blk ;;
         buf <- wr buf 0 (repeat 0 56) ;;
         Ok (state, buf)) ;;
    buf <- wr buf 56 (be64enc (c_count ctx)) ;;
    blk <- rd buf 0 64 ;;
    state <- transform state blk ;;
    Ok (mk_sha state (c_count ctx) buf).

  (* sha256.c:363-377 SHA256_Init; ctx->buf keeps its old (arbitrary) contents *)
  Definition SHA256_Init (ctx : sha_ctx) : sha_ctx :=
    mk_sha initial_state 0 (c_buf ctx).

  (* sha256.c:413-417: while (len >= 64) { transform; src += 64; len -= 64; }
     Returns the new state and the remaining input. *)
  Fixpoint update_blocks (fuel : nat) (state : list N) (src : bytes)
    : res (list N * bytes) :=
    if Nat.leb 64 (length src) then
      match fuel with
      | O => UB
      | S f =>
          blk <- rd src 0 64 ;;
          state <- transform state blk ;;
          update_blocks f state (skipn 64 src)
      end
    else Ok (state, src).

  (* sha256.c:383-421 SHA256_Update_internal; [src] is the len-byte input *)
  Definition SHA256_Update (ctx : sha_ctx) (src : bytes) : res sha_ctx :=
    let len := length src in
    if Nat.eqb len 0 then Ok ctx else
    let r := N.to_nat (N.land (N.shiftr (c_count ctx) 3) 0x3f) in
    let count := w64 (c_count ctx + w64 (N.shiftl (N.of_nat len) 3)) in
    if Nat.ltb len (64 - r) then
      buf <- wr (c_buf ctx) r src ;;
      Ok (mk_sha (c_state ctx) count buf)
    else
      part <- rd src 0 (64 - r) ;;
      buf <- wr (c_buf ctx) r part ;;
      blk <- rd buf 0 64 ;;
      state <- transform (c_state ctx) blk ;;
      ' (state, rest) <- update_blocks len state (skipn (64 - r) src) ;;
      buf <- wr buf 0 rest ;;
      Ok (mk_sha state count buf).

  (* sha256.c:441-451 SHA256_Final_internal: the digest and the final context *)
  Definition SHA256_Final_internal (ctx : sha_ctx) : res (bytes * sha_ctx) :=
    ctx <- SHA256_Pad ctx ;;
    d <- be32enc_vect (c_state ctx) 32 ;;
    Ok (d, ctx).

  (** insecure_memzero of a context *)
  Definition sha_zero : sha_ctx := mk_sha (repeat 0 8) 0 (repeat 0 64).

  (* sha256.c:454-467 SHA256_Final: also zeroes the context *)
  Definition SHA256_Final (ctx : sha_ctx) : res (bytes * sha_ctx) :=
    ' (d, _) <- SHA256_Final_internal ctx ;; Ok (d, sha_zero).

  (** An uninitialised context on the stack. *)
  Definition sha_junk : sha_ctx :=
    mk_sha (scratch_words junk 8) (w64 (junk 0%nat)) (scratch_bytes junk 64).

  (* sha256.c:473-486 SHA256_Buf *)
  Definition SHA256_Buf (inp : bytes) : res bytes :=
    ctx <- SHA256_Update (SHA256_Init sha_junk) inp ;;
    ' (d, _) <- SHA256_Final_internal ctx ;; Ok d.

  (* sha256.h:55-58 HMAC_SHA256_CTX *)
  Record hmac_ctx := mk_hmac { h_ictx : sha_ctx; h_octx : sha_ctx }.
  (* an uninitialised HMAC_SHA256_CTX *)
  Definition hmac_junk : hmac_ctx := mk_hmac sha_junk sha_junk.
  (* an HMAC_SHA256_CTX after insecure_memzero *)
  Definition hmac_zero : hmac_ctx := mk_hmac sha_zero sha_zero.

  (* sha256.c:513-514, 520-521: for (i = 0; i < Klen; i++) pad[i] ^= K[i]; *)
  Fixpoint pad_xor (n i : nat) (pad K : bytes) : res bytes :=
    match n with
    | O => Ok pad
    | S n' =>
        p <- rd pad i 1 ;; k <- rd K i 1 ;;
        pad <- wr pad i [N.lxor (sel p 0) (sel k 0)] ;;
        pad_xor n' (S i) pad K
    end.

  (* sha256.c:500-507: if (Klen > 64) the key is SHA256(K) *)
  Definition HMAC_hash_key (ictx : sha_ctx) (K : bytes) : res (sha_ctx * bytes) :=
    if Nat.ltb 64 (length K) then
      i1 <- SHA256_Update (SHA256_Init ictx) K ;;
      ' (khash, i2) <- SHA256_Final_internal i1 ;;
      Ok (i2, khash)
    else Ok (ictx, K).

  (* sha256.c:493-523 HMAC_SHA256_Init_internal *)
  Definition HMAC_SHA256_Init (ctx : hmac_ctx) (K : bytes) : res hmac_ctx :=
    ' (ictx, K) <- HMAC_hash_key (h_ictx ctx) K ;;
    pad <- pad_xor (length K) 0 (repeat 0x36 64) K ;;
    ictx <- SHA256_Update (SHA256_Init ictx) pad ;;
    pad <- pad_xor (length K) 0 (repeat 0x5c 64) K ;;
    octx <- SHA256_Update (SHA256_Init (h_octx ctx)) pad ;;
    Ok (mk_hmac ictx octx).

  (* sha256.c:546-566 HMAC_SHA256_Update(_internal) *)
  Definition HMAC_SHA256_Update (ctx : hmac_ctx) (inp : bytes) : res hmac_ctx :=
    ictx <- SHA256_Update (h_ictx ctx) inp ;; Ok (mk_hmac ictx (h_octx ctx)).

  (* sha256.c:573-586 HMAC_SHA256_Final_internal *)
  Definition HMAC_SHA256_Final_internal (ctx : hmac_ctx) : res bytes :=
    ' (ihash, _) <- SHA256_Final_internal (h_ictx ctx) ;;
    octx <- SHA256_Update (h_octx ctx) ihash ;;
    ' (d, _) <- SHA256_Final_internal octx ;; Ok d.
  (* sha256.c:589-604 HMAC_SHA256_Final: also zeroes the context *)
  Definition HMAC_SHA256_Final (ctx : hmac_ctx) : res (bytes * hmac_ctx) :=
    d <- HMAC_SHA256_Final_internal ctx ;; Ok (d, hmac_zero).

  (* sha256.c:611-627 HMAC_SHA256_Buf *)
  Definition HMAC_SHA256_Buf (K inp : bytes) : res bytes :=
    ctx <- HMAC_SHA256_Init hmac_junk K ;;
    ctx <- HMAC_SHA256_Update ctx inp ;;
    HMAC_SHA256_Final_internal ctx.

  (* sha256.c:677-687: for (j = 2; j <= c; j++) ...; [n] = number of iterations.
     The loop for (k = 0; k < 32; k++) T[k] ^= U[k] is xorl. *)
  Fixpoint pbkdf2_inner (n : nat) (Phctx : hmac_ctx) (U T : bytes) : res bytes :=
    match n with
    | O => Ok T
    | S n' =>
        hctx <- HMAC_SHA256_Update Phctx U ;;
        U <- HMAC_SHA256_Final_internal hctx ;;
        pbkdf2_inner n' Phctx U (xorl T U)
    end.

  (* sha256.c:664-692: for (i = 0; i * 32 < dkLen; i++) ...; size_t is 64 bits.
     [fuel] bounds the iterations; running out is UB (excluded by proof). *)
  Fixpoint pbkdf2_outer (fuel : nat) (i : N) (Phctx PShctx : hmac_ctx) (c : N)
    (buf : bytes) (dkLen : N) : res bytes :=
    if w64 (i * 32) <? dkLen then
      match fuel with
      | O => UB
      | S f =>
          let ivec := be32enc (w32 (i + 1)) in
          hctx <- HMAC_SHA256_Update PShctx ivec ;;
          U <- HMAC_SHA256_Final_internal hctx ;;
          T <- pbkdf2_inner (N.to_nat c - 1) Phctx U U ;;
          let clen := w64 (2 ^ 64 + dkLen - w64 (i * 32)) in
          let clen := if 32 <? clen then 32 else clen in
          t <- rd T 0 (N.to_nat clen) ;;
          buf <- wr buf (N.to_nat (w64 (i * 32))) t ;;
          pbkdf2_outer f (w64 (i + 1)) Phctx PShctx c buf dkLen
      end
    else Ok buf.

  (* sha256.c:634-701 PBKDF2_SHA256; [buf] is the caller's output buffer *)
  Definition PBKDF2_SHA256 (passwd salt : bytes) (c : N) (buf : bytes) (dkLen : N)
    : res bytes :=
    _ <- assert_ (dkLen <=? 32 * 0xffffffff) ;;
    Phctx <- HMAC_SHA256_Init hmac_junk passwd ;;
    PShctx <- HMAC_SHA256_Update Phctx salt ;;
    pbkdf2_outer (S (N.to_nat (dkLen / 32))) 0 Phctx PShctx c buf dkLen.
End WithMachine.
