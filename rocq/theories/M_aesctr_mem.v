(** crypto_aesctr_stream on memory: the same code as in M_aesctr, with the
    buffers as address ranges of one memory, so that ${inbuf} and ${outbuf} may
    overlap.  A pointer into [m] is an offset; the stream structure and the
    expanded key lie elsewhere. *)
From Verif Require Import Base SpecBytes SpecAES M_endian M_aes_hw M_aesctr.

(** The three variables passed by address: *inbuf, *outbuf, *buflen, and the memory. *)
Record bufs := mk_bufs { b_mem : bytes; b_in : nat; b_out : nat; b_len : nat }.
(* the updates *inbuf += n; *outbuf += n; *buflen -= n *)
Definition advance (n : nat) (b : bufs) (m : bytes) : bufs := mk_bufs m (b_in b + n) (b_out b + n) (b_len b - n).

Section StreamMem.
  Context (hw : aes_hw) (hi : bytes).
  (* crypto_aesctr_shared.c:45-47: for (i = 0; i < nbytes; i++) out[i] =
     in[i] ^ stream->buf[bytemod + i]; from index [j] on, [n] rounds left *)
  Fixpoint use_loop (n j : nat) (buf : bytes) (bytemod inbuf outbuf : nat) (m : bytes) : res bytes :=
    match n with
    | O => Ok m
    | S n' =>
        a <- rd m (inbuf + j) 1 ;;
        b <- rd buf (bytemod + j) 1 ;;
        m <- wr m (outbuf + j) (xorl a b) ;;
        use_loop n' (S j) buf bytemod inbuf outbuf m
    end.
  (* crypto_aesctr_shared.c:37-56 crypto_aesctr_stream_cipherblock_use *)
  Definition use_mem (st : ctr_stream) (b : bufs) (nbytes bytemod : nat) : res (bufs * ctr_stream) :=
    m <- use_loop nbytes 0 (s_buf st) bytemod (b_in b) (b_out b) (b_mem b) ;;
    Ok (advance nbytes b m, mk_ctr (s_key st) (w64 (s_bytectr st + N.of_nat nbytes)) (s_buf st) (s_pblk st)).
  (* crypto_aesctr_shared.c:58-86 crypto_aesctr_stream_pre_wholeblock *)
  Definition pre_mem (st : ctr_stream) (b : bufs) : res (bool * (bufs * ctr_stream)) :=
    let bytemod := N.to_nat (s_bytectr st mod 16) in
    if Nat.eqb bytemod 0 then Ok (false, (b, st))
    else if Nat.leb (bytemod + b_len b) 16 then
      r <- use_mem st b (b_len b) bytemod ;; Ok (true, r)
    else
      r <- use_mem st b (16 - bytemod) bytemod ;; Ok (false, r).
  (* crypto_aesctr_shared.c:88-103 crypto_aesctr_stream_post_wholeblock *)
  Definition post_mem (st : ctr_stream) (b : bufs) : res (bufs * ctr_stream) :=
    if Nat.ltb 0 (b_len b) then
      st <- cipherblock_generate hw st ;; use_mem st b (b_len b) 0
    else Ok (b, st).
  (* crypto_aesctr.c:191-199: while (buflen >= 16) *)
  Fixpoint sw_mem (fuel : nat) (st : ctr_stream) (b : bufs) : res (bufs * ctr_stream) :=
    if Nat.leb 16 (b_len b) then
      match fuel with
      | O => UB
      | S f =>
          st <- cipherblock_generate hw st ;;
          ' (b, st) <- use_mem st b 16 0 ;;
          sw_mem f st b
      end
    else Ok (b, st).
  (* crypto_aesctr_aesni.c:80-101 / crypto_aesctr_arm.c:61-82: load 16 bytes, xor, store *)
  Fixpoint hw_blocks_mem (enc : bytes -> hw_key -> res bytes) (combine : bytes -> bytes -> res bytes)
    (i : nat) (key : hw_key) (nonce_be : bytes) (ctr : N) (m : bytes) (inbuf outbuf : nat) : res (bytes * nat * nat * bytes) :=
    match i with
    | O => UB
    | S i' =>
        let arr := be64enc ctr in
        k <- combine nonce_be arr ;;
        k <- enc k key ;;
        x <- vld16 m inbuf ;;
        m <- wr m outbuf (vxor x k) ;;
        match i' with
        | O => Ok (m, inbuf + 16, outbuf + 16, arr)%nat
        | _ => hw_blocks_mem enc combine i' key nonce_be (w64 (ctr + 1)) m (inbuf + 16) (outbuf + 16)
        end
    end.
  (* crypto_aesctr_aesni.c:54-109, crypto_aesctr_arm.c:35-90 *)
  Definition whole_mem (st : ctr_stream) (b : bufs) : res (bufs * ctr_stream) :=
    match hw, s_key st with
    | AES_SOFTWARE, _ | _, AK_openssl _ => UB
    | _, AK_hw hk =>
        let num_blocks := (b_len b / 16)%nat in
        let ctr := s_bytectr st / 16 in
        ' (m, i, o, arr) <-
          match hw with
          | AES_X86_AESNI =>
              nonce_be <- load_si64 hi (s_pblk st) 0 ;;
              hw_blocks_mem crypto_aes_encrypt_block_aesni_m128i
                (fun n a => c <- load_si64 hi a 0 ;; Ok (unpacklo64 n c)) num_blocks hk nonce_be ctr (b_mem b) (b_in b) (b_out b)
          | _ =>
              nonce_be <- rd (s_pblk st) 0 8 ;;
              hw_blocks_mem crypto_aes_encrypt_block_arm_u8
                (fun n a => c <- rd a 0 8 ;; Ok (n ++ c)) num_blocks hk nonce_be ctr (b_mem b) (b_in b) (b_out b)
          end ;;
        pblk <- wr (s_pblk st) 8 arr ;;
        Ok (mk_bufs m i o (b_len b - 16 * num_blocks),
            mk_ctr (s_key st) (w64 (s_bytectr st + w64 (16 * N.of_nat num_blocks))) (s_buf st) pblk)
    end.
  (* crypto_aesctr.c:161-204 crypto_aesctr_stream, with crypto_aesctr_aesni.c:111-134 and
     crypto_aesctr_arm.c:92-115: the memory afterwards, and the stream *)
  Definition crypto_aesctr_stream_mem (st : ctr_stream) (m : bytes) (inbuf outbuf buflen : nat) : res (bytes * ctr_stream) :=
    let use_hw := Nat.leb 16 buflen && match hw with AES_SOFTWARE => false | _ => true end in
    ' (fin, (b, st)) <- pre_mem st (mk_bufs m inbuf outbuf buflen) ;;
    if fin : bool then Ok (b_mem b, st) else
    ' (b, st) <-
      (if use_hw then
         if Nat.leb 16 (b_len b) then whole_mem st b else Ok (b, st)
       else sw_mem (b_len b) st b) ;;
    ' (b, st) <- post_mem st b ;;
    Ok (b_mem b, st).
End StreamMem.

(** Successive calls on one stream, each with its own memory and buffers (a
    buffer handed from one call to the next appears in both memories): the
    memories afterwards, and the final stream. *)
Fixpoint mem_calls (hw : aes_hw) (hi : bytes) (st : ctr_stream) (calls : list bufs) : res (list bytes * ctr_stream) :=
  match calls with
  | [] => Ok ([], st)
  | b :: t =>
      ' (m, st) <- crypto_aesctr_stream_mem hw hi st (b_mem b) (b_in b) (b_out b) (b_len b) ;;
      ' (ms, st) <- mem_calls hw hi st t ;;
      Ok (m :: ms, st)
  end.
