(** libcperciva/crypto/crypto_entropy.c (with entropy.c and crypto_entropy_rdrand.c)
    again, this time with its memory.

    M_entropy models what the generator computes.  Here the automatic variables
    of every function on the way (seed_material, buf, K, Vx, ctx, and those of
    the hash functions as in M_sha256_mem) are pieces of memory: each starts out
    holding whatever the stack held, and what it holds when its function returns
    is recorded.  [l] is the record so far, oldest first. *)
From Verif Require Import Base SpecBytes M_sha256_tr M_simd M_sha256_hw M_sha256 M_memzero M_sha256_mem M_entropy.

(** Whose memory a recorded piece is. *)
Inductive place :=
| P_hash      (* the automatic variables of a function of sha256.c *)
| P_update    (* ctx, K and Vx of update *)
| P_seed      (* seed_material of instantiate or reseed *)
| P_rdrand.   (* buf of update_from_rdrand *)
Definition piece : Type := place * list N.

(** A context as memory: sha256.h:23-27, 55-58. *)
Definition sha_words (c : sha_ctx) : list N := c_state c ++ [c_count c] ++ c_buf c.
(* The same for an HMAC context: sha256.h:55-58 *)
Definition hmac_words (c : hmac_ctx) : list N := sha_words (h_ictx c) ++ sha_words (h_octx c).

Section WithMachine.
  Context (hw : sha_hw) (leave : list N -> bytes -> list N -> list N).
  (** What the stack holds when a function is entered: by the number of pieces
      recorded so far, and by position in the function's frame. *)
  Context (junk : nat -> nat -> N).

  (* An array of n elements at offset off of the frame *)
  Definition found (l : list piece) (off n : nat) : list N := map (junk (length l)) (seq off n).
  (* A SHA256_CTX there *)
  Definition sha_found (l : list piece) (off : nat) : sha_ctx :=
    mk_sha (found l off 8) (junk (length l) (off + 8)) (found l (off + 9) 64).
  (* An HMAC_SHA256_CTX there *)
  Definition hmac_found (l : list piece) (off : nat) : hmac_ctx :=
    mk_hmac (sha_found l off) (sha_found l (off + 73)).

  (* sha256.c:526-540 HMAC_SHA256_Init(ctx, K, Klen), called *)
  Definition call_Init (ctx : hmac_ctx) (K : bytes) (l : list piece) : res (hmac_ctx * list piece) :=
    ' (ctx, tmp32, pad, khash) <-
      mem_HMAC_Init hw leave ctx K (found l 0 72) (found l 72 64) (found l 136 32) ;;
    Ok (ctx, l ++ [(P_hash, tmp32 ++ pad ++ khash)]).
  (* sha256.c:556-566 HMAC_SHA256_Update, called *)
  Definition call_Update (ctx : hmac_ctx) (inp : bytes) (l : list piece) : res (hmac_ctx * list piece) :=
    ' (ctx, tmp32) <- mem_HMAC_Update hw leave ctx inp (found l 0 72) ;;
    Ok (ctx, l ++ [(P_hash, tmp32)]).
  (* sha256.c:589-604 HMAC_SHA256_Final(digest, ctx), called *)
  Definition call_Final (digest : bytes) (ctx : hmac_ctx) (l : list piece)
    : res (bytes * hmac_ctx * list piece) :=
    ' (digest, ctx, tmp32, ihash) <- mem_HMAC_Final hw leave digest ctx (found l 0 72) (found l 72 32) ;;
    Ok (digest, ctx, l ++ [(P_hash, tmp32 ++ ihash)]).
  (* sha256.c:611-627 HMAC_SHA256_Buf(K, Klen, in, len, digest), called; the
     input is read before the digest is stored, so the two may be one array *)
  Definition call_Buf (K inp digest : bytes) (l : list piece) : res (bytes * list piece) :=
    ' (digest, ctx, tmp32, tmp8) <-
      mem_HMAC_Buf hw leave K inp digest (hmac_found l 0) (found l 146 72) (found l 218 96) ;;
    Ok (digest, l ++ [(P_hash, hmac_words ctx ++ tmp32 ++ tmp8)]).

  (* crypto_entropy.c:106-112 and 121-126: Vx[32] = c; K <- HMAC(K, Vx || data); V <- HMAC(K, V) *)
  Definition mem_round (c : N) (data : bytes) (K Vx : bytes) (ctx : hmac_ctx) (l : list piece)
    : res (bytes * bytes * hmac_ctx * list piece) :=
    Vx <- wr Vx 32 [c] ;;
    k <- rd K 0 32 ;;
    ' (ctx, l) <- call_Init ctx k l ;;
    v <- rd Vx 0 33 ;;
    ' (ctx, l) <- call_Update ctx v l ;;
    ' (ctx, l) <- call_Update ctx data l ;;
    ' (K, ctx, l) <- call_Final K ctx l ;;
    k <- rd K 0 32 ;;
    v <- rd Vx 0 32 ;;
    ' (Vx, l) <- call_Buf k v Vx l ;;
    Ok (K, Vx, ctx, l).

  (* crypto_entropy.c:96-137 update *)
  Definition mem_update (st : drbg) (data : bytes) (l : list piece) : res (drbg * list piece) :=
    let ctx := hmac_found l 0 in
    K <- wr (found l 146 32) 0 (d_Key st) ;;
    Vx <- wr (found l 178 33) 0 (d_V st) ;;
    ' (K, Vx, ctx, l) <- mem_round 0x00 data K Vx ctx l ;;
    ' (K, Vx, ctx, l) <-
      (if negb (Nat.eqb (length data) 0) then mem_round 0x01 data K Vx ctx l else Ok (K, Vx, ctx, l)) ;;
    Key <- rd K 0 32 ;;
    V <- rd Vx 0 32 ;;
    K <- insecure_memzero K 32 ;;
    Vx <- insecure_memzero Vx 33 ;;
    Ok (mk_drbg (d_inst st) Key V (d_ctr st), l ++ [(P_update, hmac_words ctx ++ K ++ Vx)]).

  (* entropy.c:67-98 entropy_read_fill, the loop, storing at &buf[pos]: false on failure *)
  Fixpoint mem_fill (os : os_ent) (fuel i : nat) (buf : bytes) (pos : nat) (buflen : N) : res (bool * bytes) :=
    if 0 <? buflen then
      match fuel with
      | O => UB
      | S f =>
          match oe_read os i with
          | None => Ok (false, buf)
          | Some d =>
              let got := firstn (N.to_nat buflen) d in
              let lenread := N.of_nat (length got) in
              if lenread =? 0 then Ok (false, buf) else
              buf <- wr buf pos got ;;
              mem_fill os f (S i) buf (pos + length got) (w64 (2 ^ 64 + buflen - lenread))
          end
      end
    else Ok (true, buf).
  (* entropy.c:133-173 entropy_read(buf, buflen): false on failure *)
  Definition mem_entropy_read (os : os_ent) (buf : bytes) (buflen : N) : res (bool * bytes) :=
    _ <- assert_ (buflen <=? SSIZE_MAX) ;;
    if negb (oe_malloc os) then Ok (false, buf) else
    if negb (oe_open os) then Ok (false, buf) else
    _ <- assert_ (buflen <=? SSIZE_MAX) ;;
    ' (ok, buf) <- mem_fill os (N.to_nat buflen) 0 buf 0 buflen ;;
    Ok (ok && oe_close os, buf).
  (* crypto_entropy_rdrand.c:18-35 generate_seed_rdrand(buf, len): true on
     success.  An RDRAND instruction that fails stores 0 (Intel SDM). *)
  Fixpoint mem_seed_rdrand (step : nat -> option N) (i n : nat) (buf : list N) : res (bool * list N) :=
    match n with
    | O => Ok (true, buf)
    | S n' =>
        match step i with
        | None => buf <- wr buf i [0] ;; Ok (false, buf)
        | Some v => buf <- wr buf i [v] ;; mem_seed_rdrand step (S i) n' buf
        end
    end.

  Context (E : ent_env).
  (* crypto_entropy.c:43-56 update_from_rdrand, guarded as in 77-81 / 157-161 *)
  Definition mem_update_from_rdrand (k : nat) (st : drbg) (l : list piece) : res (drbg * list piece) :=
    if ce_rdrand E then
      ' (ok, buf) <- mem_seed_rdrand (ce_step E k) 0 8 (found l 0 8) ;;
      if negb ok then Ok (st, l ++ [(P_rdrand, buf)]) else
      ' (st, l) <- mem_update st (flat_map (le_bytes 4) buf) l ;;
      buf <- memzero_words buf 32 ;;
      Ok (st, l ++ [(P_rdrand, buf)])
    else Ok (st, l).
  (* crypto_entropy.c:62-90 instantiate *)
  Definition mem_instantiate (k : nat) (st : drbg) (l : list piece) : res (bool * drbg * list piece) :=
    ' (ok, seed_material) <- mem_entropy_read (ce_os E k) (found l 0 48) 48 ;;
    if negb ok then Ok (false, st, l ++ [(P_seed, seed_material)]) else
    let st := mk_drbg (d_inst st) (repeat 0x00 32) (repeat 0x01 32) 1 in
    data <- rd seed_material 0 48 ;;
    ' (st, l) <- mem_update st data l ;;
    ' (st, l) <- mem_update_from_rdrand k st l ;;
    seed_material <- insecure_memzero seed_material 48 ;;
    Ok (true, st, l ++ [(P_seed, seed_material)]).
  (* crypto_entropy.c:143-169 reseed *)
  Definition mem_reseed (k : nat) (st : drbg) (l : list piece) : res (bool * drbg * list piece) :=
    ' (ok, seed_material) <- mem_entropy_read (ce_os E k) (found l 0 32) 32 ;;
    if negb ok then Ok (false, st, l ++ [(P_seed, seed_material)]) else
    data <- rd seed_material 0 32 ;;
    ' (st, l) <- mem_update st data l ;;
    ' (st, l) <- mem_update_from_rdrand k st l ;;
    let st := mk_drbg (d_inst st) (d_Key st) (d_V st) 1 in
    seed_material <- insecure_memzero seed_material 32 ;;
    Ok (true, st, l ++ [(P_seed, seed_material)]).
  (* crypto_entropy.c:186-193, as generate_loop of M_entropy; drbg.V is both
     input and output of HMAC_SHA256_Buf *)
  Fixpoint mem_generate_loop (fuel bufpos buflen : nat) (st : drbg) (l : list piece)
    : res (bytes * drbg * list piece) :=
    if Nat.ltb bufpos buflen then
      match fuel with
      | O => UB
      | S f =>
          ' (V, l) <- call_Buf (d_Key st) (d_V st) (d_V st) l ;;
          let st := mk_drbg (d_inst st) (d_Key st) V (d_ctr st) in
          out <- (if Nat.leb 32 (buflen - bufpos) then rd V 0 32 else rd V 0 (buflen - bufpos)) ;;
          ' (outs, st, l) <- mem_generate_loop f (bufpos + 32) buflen st l ;;
          Ok (out ++ outs, st, l)
      end
    else Ok ([], st, l).
  (* crypto_entropy.c:178-200 generate *)
  Definition mem_generate (buflen : nat) (st : drbg) (l : list piece) : res (bytes * drbg * list piece) :=
    _ <- assert_ (Nat.leb buflen GENERATE_MAXLEN) ;;
    _ <- assert_ (d_ctr st <=? RESEED_INTERVAL) ;;
    ' (out, st, l) <- mem_generate_loop buflen 0 buflen st l ;;
    ' (st, l) <- mem_update st [] l ;;
    Ok (out, mk_drbg (d_inst st) (d_Key st) (d_V st) (w32 (d_ctr st + 1)), l).
  (* crypto_entropy.c:222-241: while (buflen > 0) *)
  Fixpoint mem_read_loop (fuel k buflen : nat) (st : drbg) (l : list piece)
    : res (option bytes * drbg * list piece) :=
    if Nat.ltb 0 buflen then
      match fuel with
      | O => UB
      | S f =>
          let need := RESEED_INTERVAL <? d_ctr st in
          ' (ok, st, l) <- (if need then mem_reseed k st l else Ok (true, st, l)) ;;
          if negb ok then Ok (None, st, l) else
          let k := if need then S k else k in
          let bytes_to_provide := if Nat.ltb GENERATE_MAXLEN buflen then GENERATE_MAXLEN else buflen in
          ' (out, st, l) <- mem_generate bytes_to_provide st l ;;
          ' (r, st, l) <- mem_read_loop f k (buflen - bytes_to_provide) st l ;;
          Ok (option_map (app out) r, st, l)
      end
    else Ok (Some [], st, l).
  (* crypto_entropy.c:206-245 crypto_entropy_read *)
  Definition mem_crypto_entropy_read (st : drbg) (buflen : nat) : res (option bytes * drbg * list piece) :=
    let fresh := negb (d_inst st) in
    ' (ok, st, l) <- (if fresh then mem_instantiate 0 st [] else Ok (true, st, [])) ;;
    if negb ok then Ok (None, st, l) else
    let st := if fresh then mk_drbg true (d_Key st) (d_V st) (d_ctr st) else st in
    mem_read_loop buflen (if fresh then 1 else 0)%nat buflen st l.
End WithMachine.
