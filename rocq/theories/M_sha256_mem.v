(** libcperciva/alg/sha256.c again, this time with its scratch memory.

    M_sha256 models what the hash functions compute; there, scratch arrays are
    filled afresh by an oracle on every use.  Here every automatic array and
    every context a function declares is a piece of memory that is passed
    along as in the C code: what one step leaves behind is what the next step
    finds, two names for the same array are the same array, and what is left
    when the function returns is part of the result.

    The one thing left open is what SHA256_Transform leaves in tmp32: it
    depends on the routine in use (the portable and the SSE2 code leave the
    message schedule and the working variables there, the SHANI and ARM ones
    leave it alone).  [leave state block tmp32] stands for it and is arbitrary. *)
From Verif Require Import Base M_endian M_sha256_tr M_simd M_sha256_hw M_sha256 M_memzero.

(** insecure_memzero applied to an array of 32-bit words; [len] is in bytes.
    insecure_memzero.c:8-16; a length that is not a multiple of 4 does not occur. *)
Definition memzero_words (buf : list N) (len : nat) : res (list N) :=
  insecure_memzero buf (len / 4).

(** insecure_memzero(ctx, sizeof(SHA256_CTX)): sha256.h:23-27, the three fields. *)
Definition memzero_sha (ctx : sha_ctx) : res sha_ctx :=
  state <- memzero_words (c_state ctx) 32 ;;
  buf <- insecure_memzero (c_buf ctx) 64 ;;
  Ok (mk_sha state 0 buf).

(** insecure_memzero(ctx, sizeof(HMAC_SHA256_CTX)): sha256.h:55-58. *)
Definition memzero_hmac (ctx : hmac_ctx) : res hmac_ctx :=
  i <- memzero_sha (h_ictx ctx) ;;
  o <- memzero_sha (h_octx ctx) ;;
  Ok (mk_hmac i o).

Section WithMachine.
  Context (hw : sha_hw) (leave : list N -> bytes -> list N -> list N).

  (* sha256.c:232-321 SHA256_Transform(state, block, &tmp32[0], &tmp32[64]):
     the new state and the new contents of tmp32 *)
  Definition mem_Transform (state : list N) (block : bytes) (tmp32 : list N)
    : res (list N * list N) :=
    W <- rd tmp32 0 64 ;;
    st <- SHA256_Transform hw state block W ;;
    Ok (st, leave state block tmp32).

  (* sha256.c:331-357 SHA256_Pad *)
  Definition mem_Pad (ctx : sha_ctx) (tmp32 : list N) : res (sha_ctx * list N) :=
    let r := N.to_nat (N.land (N.shiftr (c_count ctx) 3) 0x3f) in
    ' (state, buf, tmp32) <-
      (if Nat.ltb r 56 then
         pad <- rd PAD 0 (56 - r) ;;
         buf <- wr (c_buf ctx) r pad ;;
         Ok (c_state ctx, buf, tmp32)
       else
         pad <- rd PAD 0 (64 - r) ;;
         buf <- wr (c_buf ctx) r pad ;;
         blk <- rd buf 0 64 ;;
         ' (state, tmp32) <- mem_Transform (c_state ctx) blk tmp32 ;;
         buf <- wr buf 0 (repeat 0 56) ;;
         Ok (state, buf, tmp32)) ;;
    buf <- wr buf 56 (be64enc (c_count ctx)) ;;
    blk <- rd buf 0 64 ;;
    ' (state, tmp32) <- mem_Transform state blk tmp32 ;;
    Ok (mk_sha state (c_count ctx) buf, tmp32).

  (* sha256.c:413-417: while (len >= 64) { transform; src += 64; len -= 64; } *)
  Fixpoint mem_update_blocks (fuel : nat) (state : list N) (src : bytes) (tmp32 : list N)
    : res (list N * bytes * list N) :=
    if Nat.leb 64 (length src) then
      match fuel with
      | O => UB
      | S f =>
          blk <- rd src 0 64 ;;
          ' (state, tmp32) <- mem_Transform state blk tmp32 ;;
          mem_update_blocks f state (skipn 64 src) tmp32
      end
    else Ok (state, src, tmp32).

  (* sha256.c:383-421 SHA256_Update_internal *)
  Definition mem_Update_internal (ctx : sha_ctx) (src : bytes) (tmp32 : list N)
    : res (sha_ctx * list N) :=
    let len := length src in
    if Nat.eqb len 0 then Ok (ctx, tmp32) else
    let r := N.to_nat (N.land (N.shiftr (c_count ctx) 3) 0x3f) in
    let count := w64 (c_count ctx + w64 (N.shiftl (N.of_nat len) 3)) in
    if Nat.ltb len (64 - r) then
      buf <- wr (c_buf ctx) r src ;;
      Ok (mk_sha (c_state ctx) count buf, tmp32)
    else
      part <- rd src 0 (64 - r) ;;
      buf <- wr (c_buf ctx) r part ;;
      blk <- rd buf 0 64 ;;
      ' (state, tmp32) <- mem_Transform (c_state ctx) blk tmp32 ;;
      ' (state, rest, tmp32) <- mem_update_blocks len state (skipn (64 - r) src) tmp32 ;;
      buf <- wr buf 0 rest ;;
      Ok (mk_sha state count buf, tmp32).

  (* sha256.c:423-434 SHA256_Update: the context and tmp32 as left on return *)
  Definition mem_Update (ctx : sha_ctx) (src : bytes) (tmp32 : list N)
    : res (sha_ctx * list N) :=
    ' (ctx, tmp32) <- mem_Update_internal ctx src tmp32 ;;
    tmp32 <- memzero_words tmp32 (4 * 72) ;;
    Ok (ctx, tmp32).

  (* sha256.c:441-451 SHA256_Final_internal: [digest] is the array the hash is written to *)
  Definition mem_Final_internal (digest : bytes) (ctx : sha_ctx) (tmp32 : list N)
    : res (bytes * sha_ctx * list N) :=
    ' (ctx, tmp32) <- mem_Pad ctx tmp32 ;;
    d <- be32enc_vect (c_state ctx) 32 ;;
    digest <- wr digest 0 d ;;
    Ok (digest, ctx, tmp32).

  (* sha256.c:454-467 SHA256_Final *)
  Definition mem_Final (digest : bytes) (ctx : sha_ctx) (tmp32 : list N)
    : res (bytes * sha_ctx * list N) :=
    ' (digest, ctx, tmp32) <- mem_Final_internal digest ctx tmp32 ;;
    ctx <- memzero_sha ctx ;;
    tmp32 <- memzero_words tmp32 (4 * 72) ;;
    Ok (digest, ctx, tmp32).

  (* sha256.c:473-486 SHA256_Buf; [ctx] and [tmp32] are its automatic variables,
     as found on entry and as left on return *)
  Definition mem_Buf (inp : bytes) (digest : bytes) (ctx : sha_ctx) (tmp32 : list N)
    : res (bytes * sha_ctx * list N) :=
    let ctx := SHA256_Init ctx in
    ' (ctx, tmp32) <- mem_Update_internal ctx inp tmp32 ;;
    ' (digest, ctx, tmp32) <- mem_Final_internal digest ctx tmp32 ;;
    ctx <- memzero_sha ctx ;;
    tmp32 <- memzero_words tmp32 (4 * 72) ;;
    Ok (digest, ctx, tmp32).

  (* sha256.c:500-507: if (Klen > 64) the key is SHA256(K), left in khash *)
  Definition mem_hash_key (ictx : sha_ctx) (K : bytes) (tmp32 : list N) (khash : bytes)
    : res (sha_ctx * bytes * list N * bytes) :=
    if Nat.ltb 64 (length K) then
      ' (ictx, tmp32) <- mem_Update_internal (SHA256_Init ictx) K tmp32 ;;
      ' (khash, ictx, tmp32) <- mem_Final_internal khash ictx tmp32 ;;
      K <- rd khash 0 32 ;;
      Ok (ictx, K, tmp32, khash)
    else Ok (ictx, K, tmp32, khash).

  (* sha256.c:493-523 HMAC_SHA256_Init_internal *)
  Definition mem_HMAC_Init_internal (ctx : hmac_ctx) (K : bytes) (tmp32 : list N)
    (pad khash : bytes) : res (hmac_ctx * list N * bytes * bytes) :=
    ' (ictx, K, tmp32, khash) <- mem_hash_key (h_ictx ctx) K tmp32 khash ;;
    pad <- wr pad 0 (repeat 0x36 64) ;;
    pad <- pad_xor (length K) 0 pad K ;;
    p <- rd pad 0 64 ;;
    ' (ictx, tmp32) <- mem_Update_internal (SHA256_Init ictx) p tmp32 ;;
    pad <- wr pad 0 (repeat 0x5c 64) ;;
    pad <- pad_xor (length K) 0 pad K ;;
    p <- rd pad 0 64 ;;
    ' (octx, tmp32) <- mem_Update_internal (SHA256_Init (h_octx ctx)) p tmp32 ;;
    Ok (mk_hmac ictx octx, tmp32, pad, khash).

  (* sha256.c:526-540 HMAC_SHA256_Init: the context, and tmp32, pad and khash on return *)
  Definition mem_HMAC_Init (ctx : hmac_ctx) (K : bytes) (tmp32 : list N) (pad khash : bytes)
    : res (hmac_ctx * list N * bytes * bytes) :=
    ' (ctx, tmp32, pad, khash) <- mem_HMAC_Init_internal ctx K tmp32 pad khash ;;
    tmp32 <- memzero_words tmp32 (4 * 72) ;;
    khash <- insecure_memzero khash 32 ;;
    pad <- insecure_memzero pad 64 ;;
    Ok (ctx, tmp32, pad, khash).

  (* sha256.c:546-553 HMAC_SHA256_Update_internal *)
  Definition mem_HMAC_Update_internal (ctx : hmac_ctx) (inp : bytes) (tmp32 : list N)
    : res (hmac_ctx * list N) :=
    ' (ictx, tmp32) <- mem_Update_internal (h_ictx ctx) inp tmp32 ;;
    Ok (mk_hmac ictx (h_octx ctx), tmp32).

  (* sha256.c:556-566 HMAC_SHA256_Update *)
  Definition mem_HMAC_Update (ctx : hmac_ctx) (inp : bytes) (tmp32 : list N)
    : res (hmac_ctx * list N) :=
    ' (ctx, tmp32) <- mem_HMAC_Update_internal ctx inp tmp32 ;;
    tmp32 <- memzero_words tmp32 (4 * 72) ;;
    Ok (ctx, tmp32).

  (* sha256.c:573-586 HMAC_SHA256_Final_internal *)
  Definition mem_HMAC_Final_internal (digest : bytes) (ctx : hmac_ctx) (tmp32 : list N)
    (ihash : bytes) : res (bytes * hmac_ctx * list N * bytes) :=
    ' (ihash, ictx, tmp32) <- mem_Final_internal ihash (h_ictx ctx) tmp32 ;;
    d <- rd ihash 0 32 ;;
    ' (octx, tmp32) <- mem_Update_internal (h_octx ctx) d tmp32 ;;
    ' (digest, octx, tmp32) <- mem_Final_internal digest octx tmp32 ;;
    Ok (digest, mk_hmac ictx octx, tmp32, ihash).

  (* sha256.c:589-604 HMAC_SHA256_Final *)
  Definition mem_HMAC_Final (digest : bytes) (ctx : hmac_ctx) (tmp32 : list N) (ihash : bytes)
    : res (bytes * hmac_ctx * list N * bytes) :=
    ' (digest, ctx, tmp32, ihash) <- mem_HMAC_Final_internal digest ctx tmp32 ihash ;;
    ctx <- memzero_hmac ctx ;;
    tmp32 <- memzero_words tmp32 (4 * 72) ;;
    ihash <- insecure_memzero ihash 32 ;;
    Ok (digest, ctx, tmp32, ihash).

  (** A callee given &tmp8[0] as pad and &tmp8[64] as khash (sha256.c:618, 658-659). *)
  Definition init_in_tmp8 (ctx : hmac_ctx) (K : bytes) (tmp32 : list N) (tmp8 : bytes)
    : res (hmac_ctx * list N * bytes) :=
    ' (ctx, tmp32, pad, khash) <-
      mem_HMAC_Init_internal ctx K tmp32 (firstn 64 tmp8) (skipn 64 tmp8) ;;
    Ok (ctx, tmp32, pad ++ khash).

  (* sha256.c:611-627 HMAC_SHA256_Buf: digest, then ctx, tmp32 and tmp8 on return.
     tmp8 serves as pad and khash and then, from its start, as ihash. *)
  Definition mem_HMAC_Buf (K inp : bytes) (digest : bytes)
    (ctx : hmac_ctx) (tmp32 : list N) (tmp8 : bytes)
    : res (bytes * hmac_ctx * list N * bytes) :=
    ' (ctx, tmp32, tmp8) <- init_in_tmp8 ctx K tmp32 tmp8 ;;
    ' (ctx, tmp32) <- mem_HMAC_Update_internal ctx inp tmp32 ;;
    ' (digest, ctx, tmp32, tmp8) <- mem_HMAC_Final_internal digest ctx tmp32 tmp8 ;;
    ctx <- memzero_hmac ctx ;;
    tmp32 <- memzero_words tmp32 (4 * 72) ;;
    tmp8 <- insecure_memzero tmp8 96 ;;
    Ok (digest, ctx, tmp32, tmp8).

  (** The automatic variables of PBKDF2_SHA256 that hold data (sha256.c:638-644). *)
  Record pb_stack := mk_pb {
    s_Phctx : hmac_ctx; s_PShctx : hmac_ctx; s_hctx : hmac_ctx;
    s_tmp32 : list N; s_tmp8 : bytes; s_ivec : bytes; s_U : bytes; s_T : bytes }.

  (* sha256.c:677-687: for (j = 2; j <= c; j++) ...; [n] = number of iterations.
     hctx, U, T, tmp32 and tmp8 are updated in place. *)
  Fixpoint mem_pb_inner (n : nat) (s : pb_stack) : res pb_stack :=
    match n with
    | O => Ok s
    | S n' =>
        u <- rd (s_U s) 0 32 ;;
        ' (hctx, tmp32) <- mem_HMAC_Update_internal (s_Phctx s) u (s_tmp32 s) ;;
        ' (U, hctx, tmp32, tmp8) <- mem_HMAC_Final_internal (s_U s) hctx tmp32 (s_tmp8 s) ;;
        T <- pad_xor 32 0 (s_T s) U ;;
        mem_pb_inner n' (mk_pb (s_Phctx s) (s_PShctx s) hctx tmp32 tmp8 (s_ivec s) U T)
    end.

  (* sha256.c:664-692: for (i = 0; i * 32 < dkLen; i++) ... *)
  Fixpoint mem_pb_outer (fuel : nat) (i : N) (s : pb_stack) (c : N) (buf : bytes) (dkLen : N)
    : res (bytes * pb_stack) :=
    if w64 (i * 32) <? dkLen then
      match fuel with
      | O => UB
      | S f =>
          ivec <- wr (s_ivec s) 0 (be32enc (w32 (i + 1))) ;;
          iv <- rd ivec 0 4 ;;
          ' (hctx, tmp32) <- mem_HMAC_Update_internal (s_PShctx s) iv (s_tmp32 s) ;;
          ' (U, hctx, tmp32, tmp8) <- mem_HMAC_Final_internal (s_U s) hctx tmp32 (s_tmp8 s) ;;
          u <- rd U 0 32 ;;
          T <- wr (s_T s) 0 u ;;
          s <- mem_pb_inner (N.to_nat c - 1)
                 (mk_pb (s_Phctx s) (s_PShctx s) hctx tmp32 tmp8 ivec U T) ;;
          let clen := w64 (2 ^ 64 + dkLen - w64 (i * 32)) in
          let clen := if 32 <? clen then 32 else clen in
          t <- rd (s_T s) 0 (N.to_nat clen) ;;
          buf <- wr buf (N.to_nat (w64 (i * 32))) t ;;
          mem_pb_outer f (w64 (i + 1)) s c buf dkLen
      end
    else Ok (buf, s).

  (* sha256.c:634-701 PBKDF2_SHA256: [buf] on return and the automatic variables on return *)
  Definition mem_PBKDF2 (passwd salt : bytes) (c : N) (buf : bytes) (dkLen : N) (s : pb_stack)
    : res (bytes * pb_stack) :=
    _ <- assert_ (dkLen <=? 32 * 0xffffffff) ;;
    ' (Phctx, tmp32, tmp8) <- init_in_tmp8 (s_Phctx s) passwd (s_tmp32 s) (s_tmp8 s) ;;
    ' (PShctx, tmp32) <- mem_HMAC_Update_internal Phctx salt tmp32 ;;
    ' (buf, s) <- mem_pb_outer (S (N.to_nat (dkLen / 32))) 0
        (mk_pb Phctx PShctx (s_hctx s) tmp32 tmp8 (s_ivec s) (s_U s) (s_T s)) c buf dkLen ;;
    Phctx <- memzero_hmac (s_Phctx s) ;;
    PShctx <- memzero_hmac (s_PShctx s) ;;
    hctx <- memzero_hmac (s_hctx s) ;;
    tmp32 <- memzero_words (s_tmp32 s) (4 * 72) ;;
    tmp8 <- insecure_memzero (s_tmp8 s) 96 ;;
    U <- insecure_memzero (s_U s) 32 ;;
    T <- insecure_memzero (s_T s) 32 ;;
    Ok (buf, mk_pb Phctx PShctx hctx tmp32 tmp8 (s_ivec s) U T).
End WithMachine.
