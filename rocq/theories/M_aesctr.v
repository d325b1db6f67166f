(** Models of crypto_aes.c (dispatch), crypto_aesctr.c, crypto_aesctr_shared.c,
    crypto_aesctr_aesni.c and crypto_aesctr_arm.c.

    A call working from ${inbuf} to ${outbuf} is modelled as a function from
    the input bytes to the output bytes.  Simplification: that this is what
    happens to memory, also when the buffers are identical, is proved in
    Prop_aesctr_mem about the model M_aesctr_mem of the same code. *)
From Verif Require Import Base SpecBytes SpecAES M_endian M_aes_hw.

(* crypto_aes.c:20-33: the static variable hwaccel after hwaccel_init; it is
   kept in step by crypto_aesctr.c:28-74 *)
Inductive aes_hw := AES_SOFTWARE | AES_X86_AESNI | AES_ARM_AES.
(* crypto_aes.c:35-41 struct crypto_aes_key.  An OpenSSL AES_KEY is represented by
   the key it was made from: AES_set_encrypt_key and AES_encrypt are OpenSSL's,
   not in /repo, and are assumed to implement FIPS 197. *)
Inductive aes_key := AK_openssl (key : bytes) | AK_hw (hk : hw_key).

(* crypto_aes.c:229-273 crypto_aes_key_expand.  [mem]: malloc succeeds; [old]:
   uninitialised memory.  None: returned NULL. *)
Definition crypto_aes_key_expand (hw : aes_hw) (mem : bool) (old : list bytes) (key : bytes) (len : nat)
  : res (option aes_key) :=
  _ <- assert_ (Nat.eqb len 16 || Nat.eqb len 32) ;;
  match hw with
  | AES_X86_AESNI =>
      k <- crypto_aes_key_expand_aesni mem old key len ;; Ok (option_map AK_hw k)
  | AES_ARM_AES =>
      k <- crypto_aes_key_expand_arm mem old key len ;; Ok (option_map AK_hw k)
  | AES_SOFTWARE =>
      if negb mem then Ok None else
      k <- rd key 0 len ;; Ok (Some (AK_openssl k))
  end.
(* crypto_aes.c:275-302 crypto_aes_encrypt_block *)
Definition crypto_aes_encrypt_block (hw : aes_hw) (inp : bytes) (key : aes_key) : res bytes :=
  match hw, key with
  | AES_X86_AESNI, AK_hw hk => crypto_aes_encrypt_block_aesni inp hk
  | AES_ARM_AES, AK_hw hk => crypto_aes_encrypt_block_arm inp hk
  | AES_SOFTWARE, AK_openssl k => b <- rd inp 0 16 ;; Ok (aes_encrypt k b)
  | _, _ => UB
  end.

(* crypto_aesctr_shared.c:7-13 struct crypto_aesctr *)
Record ctr_stream := mk_ctr {
  s_key : aes_key; s_bytectr : N; s_buf : bytes; s_pblk : bytes }.

Section Stream.
  (** [hw]: selected acceleration; [hi]: the undefined upper half of a register
      loaded with load_si64. *)
  Context (hw : aes_hw) (hi : bytes).

  (* crypto_aesctr_shared.c:15-35 crypto_aesctr_stream_cipherblock_generate *)
  Definition cipherblock_generate (st : ctr_stream) : res ctr_stream :=
    _ <- assert_ (s_bytectr st mod 16 =? 0) ;;
    c <- rd (s_pblk st) 15 1 ;;
    let c := w8 (sel c 0 + 1) in
    pblk <- wr (s_pblk st) 15 [c] ;;
    pblk <- (if c =? 0 then wr pblk 8 (be64enc (s_bytectr st / 16)) else Ok pblk) ;;
    buf <- crypto_aes_encrypt_block hw pblk (s_key st) ;;
    Ok (mk_ctr (s_key st) (s_bytectr st) buf pblk).
  (* crypto_aesctr_shared.c:37-56 crypto_aesctr_stream_cipherblock_use: the output
     bytes, the rest of the input and the new state *)
  Definition cipherblock_use (st : ctr_stream) (inp : bytes) (nbytes bytemod : nat)
    : res (bytes * bytes * ctr_stream) :=
    a <- rd inp 0 nbytes ;;
    b <- rd (s_buf st) bytemod nbytes ;;
    Ok (xorl a b, skipn nbytes inp,
        mk_ctr (s_key st) (w64 (s_bytectr st + N.of_nat nbytes)) (s_buf st) (s_pblk st)).
  (* crypto_aesctr_shared.c:58-86 crypto_aesctr_stream_pre_wholeblock; the first
     component is the return value 1 (finished) as true *)
  Definition pre_wholeblock (st : ctr_stream) (inp : bytes)
    : res (bool * (bytes * bytes * ctr_stream)) :=
    let bytemod := N.to_nat (s_bytectr st mod 16) in
    if Nat.eqb bytemod 0 then Ok (false, ([], inp, st))
    else if Nat.leb (bytemod + length inp) 16 then
      r <- cipherblock_use st inp (length inp) bytemod ;; Ok (true, r)
    else
      r <- cipherblock_use st inp (16 - bytemod) bytemod ;; Ok (false, r).
  (* crypto_aesctr_shared.c:88-103 crypto_aesctr_stream_post_wholeblock *)
  Definition post_wholeblock (st : ctr_stream) (inp : bytes) : res (bytes * ctr_stream) :=
    if Nat.ltb 0 (length inp) then
      st <- cipherblock_generate st ;;
      ' (out, _, st) <- cipherblock_use st inp (length inp) 0 ;;
      Ok (out, st)
    else Ok ([], st).
  (* crypto_aesctr.c:191-199: while (buflen >= 16) *)
  Fixpoint wholeblocks_sw (fuel : nat) (st : ctr_stream) (inp : bytes)
    : res (bytes * bytes * ctr_stream) :=
    if Nat.leb 16 (length inp) then
      match fuel with
      | O => UB
      | S f =>
          st <- cipherblock_generate st ;;
          ' (out, inp, st) <- cipherblock_use st inp 16 0 ;;
          ' (out', inp, st) <- wholeblocks_sw f st inp ;;
          Ok (out ++ out', inp, st)
      end
    else Ok ([], inp, st).

  (** _mm_loadu_si64 (crypto_aesctr_aesni.c:43-52): upper half undefined *)
  Definition load_si64 (p : bytes) (o : nat) : res bytes := l <- rd p o 8 ;; Ok (l ++ hi).
  (** _mm_unpacklo_epi64(a, b) and vcombine_u8 *)
  Definition unpacklo64 (a b : bytes) : bytes := firstn 8 a ++ firstn 8 b.
  (* crypto_aesctr_aesni.c:80-101 / crypto_aesctr_arm.c:61-82: do { ... } while (i > 0).
     Returns output, rest of input, last counter block written. *)
  Fixpoint hw_blocks (enc : bytes -> hw_key -> res bytes) (combine : bytes -> bytes -> res bytes)
    (i : nat) (key : hw_key) (nonce_be : bytes) (ctr : N) (inp : bytes)
    : res (bytes * bytes * bytes) :=
    match i with
    | O => UB
    | S i' =>
        let arr := be64enc ctr in
        b <- combine nonce_be arr ;;
        b <- enc b key ;;
        x <- vld16 inp 0 ;;
        let out := vxor x b in
        match i' with
        | O => Ok (out, skipn 16 inp, arr)
        | _ =>
            ' (out', rest, arr) <- hw_blocks enc combine i' key nonce_be (w64 (ctr + 1)) (skipn 16 inp) ;;
            Ok (out ++ out', rest, arr)
        end
    end.
  (* crypto_aesctr_aesni.c:54-109 crypto_aesctr_aesni_stream_wholeblocks;
     crypto_aesctr_arm.c:35-90 crypto_aesctr_arm_stream_wholeblocks *)
  Definition wholeblocks_hw (st : ctr_stream) (inp : bytes) : res (bytes * bytes * ctr_stream) :=
    match hw, s_key st with
    | AES_SOFTWARE, _ | _, AK_openssl _ => UB
    | _, AK_hw hk =>
        let num_blocks := (length inp / 16)%nat in
        let ctr := s_bytectr st / 16 in
        ' (out, rest, arr) <-
          match hw with
          | AES_X86_AESNI =>
              nonce_be <- load_si64 (s_pblk st) 0 ;;
              hw_blocks crypto_aes_encrypt_block_aesni_m128i
                (fun n a => c <- load_si64 a 0 ;; Ok (unpacklo64 n c)) num_blocks hk nonce_be ctr inp
          | _ =>
              nonce_be <- rd (s_pblk st) 0 8 ;;
              hw_blocks crypto_aes_encrypt_block_arm_u8
                (fun n a => c <- rd a 0 8 ;; Ok (n ++ c)) num_blocks hk nonce_be ctr inp
          end ;;
        pblk <- wr (s_pblk st) 8 arr ;;
        Ok (out, rest, mk_ctr (s_key st) (w64 (s_bytectr st + w64 (16 * N.of_nat num_blocks))) (s_buf st) pblk)
    end.
  (* crypto_aesctr.c:161-204 crypto_aesctr_stream, with crypto_aesctr_aesni.c:111-134
     and crypto_aesctr_arm.c:92-115 *)
  Definition crypto_aesctr_stream (st : ctr_stream) (inp : bytes) : res (bytes * ctr_stream) :=
    let use_hw := Nat.leb 16 (length inp) &&
                  match hw with AES_SOFTWARE => false | _ => true end in
    ' (fin, (out1, inp1, st)) <- pre_wholeblock st inp ;;
    if fin : bool then Ok (out1, st) else
    ' (out2, inp2, st) <-
      (if use_hw then
         if Nat.leb 16 (length inp1) then wholeblocks_hw st inp1 else Ok ([], inp1, st)
       else wholeblocks_sw (length inp1) st inp1) ;;
    ' (out3, st) <- post_wholeblock st inp2 ;;
    Ok (out1 ++ out2 ++ out3, st).

  (* crypto_aesctr.c:99-129 crypto_aesctr_init2.  [old] is the previous stream
     contents (uninitialised memory after alloc); key None: retain. *)
  Definition crypto_aesctr_init2 (old : option aes_key * bytes * bytes) (key : option aes_key) (nonce : N)
    : res ctr_stream :=
    let '(okey, obuf, opblk) := old in
    let key := match key with Some k => Some k | None => okey end in
    pblk <- wr opblk 0 (be64enc nonce) ;;
    pblk <- wr pblk 15 [0xff] ;;
    match key with
    | Some k => Ok (mk_ctr k 0 obuf pblk)
    | None => Abort
    end.
  (* crypto_aesctr.c:131-159 crypto_aesctr_init; [mem]: malloc succeeds *)
  Definition crypto_aesctr_init (mem : bool) (obuf opblk : bytes) (key : aes_key) (nonce : N)
    : res (option ctr_stream) :=
    if negb mem then Ok None else
    st <- crypto_aesctr_init2 (None, obuf, opblk) (Some key) nonce ;; Ok (Some st).
  (* crypto_aesctr.c:225-247 crypto_aesctr_buf *)
  Definition crypto_aesctr_buf (obuf opblk : bytes) (key : aes_key) (nonce : N) (inp : bytes) : res bytes :=
    st <- crypto_aesctr_init2 (None, obuf, opblk) (Some key) nonce ;;
    ' (out, _) <- crypto_aesctr_stream st inp ;; Ok out.
  (** Successive calls on one stream: the outputs and the final stream. *)
  Fixpoint stream_calls (st : ctr_stream) (inps : list bytes) : res (list bytes * ctr_stream) :=
    match inps with
    | [] => Ok ([], st)
    | i :: t =>
        ' (o, st) <- crypto_aesctr_stream st i ;;
        ' (os, st) <- stream_calls st t ;;
        Ok (o :: os, st)
    end.
End Stream.
