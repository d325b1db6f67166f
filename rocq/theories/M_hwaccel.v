(** Model of the run-time selection of hardware routines: cpusupport (cached
    feature detection), the self-tests and hwaccel_init of sha256.c,
    crypto_aes.c and crypto_aesctr.c.

    The hardware routines are parameters, so that a CPU which reports a feature
    it does not implement correctly is covered. *)
From Verif Require Import Base SpecAES M_endian M_sha256_tr M_simd M_sha256_hw M_sha256 M_aes_hw M_aesctr.

(** ---- feature detection ---- *)
(* cpusupport.h:133-141: the features used by the code modelled here *)
Inductive feature := F_aesni | F_rdrand | F_shani | F_sse2 | F_ssse3 | F_arm_aes | F_arm_sha256.
(** What cpuid reports: level 0 (eax: highest level), level 1 and level 7; None
    if __get_cpuid fails. *)
Record cpuid := mk_cpuid {
  id_max : option N;                 (* eax of leaf 0 *)
  id_1 : option (N * N);             (* ecx, edx of leaf 1 *)
  id_7 : N }.                        (* ebx of leaf 7 *)
(** The rest of what detection asks: the auxiliary vector's capability bits. *)
Record cpu := mk_cpu { c_id : cpuid; c_arm_aes : bool; c_arm_sha2 : bool }.
(* cpusupport_x86_aesni.c, _rdrand.c, _sse2.c, _ssse3.c:10-32: leaf 1 *)
Definition detect_leaf1 (id : cpuid) (pick : N * N -> N) (bit : N) : bool :=
  match id_max id with
  | None => false
  | Some m =>
      if m <? 1 then false else
      match id_1 id with
      | None => false
      | Some r => negb (N.land (pick r) (N.shiftl 1 bit) =? 0)
      end
  end.
(* cpusupport_x86_shani.c:10-36: leaf 7 *)
Definition detect_leaf7 (id : cpuid) (bit : N) : bool :=
  match id_max id with
  | None => false
  | Some m => if m <? 7 then false else negb (N.land (id_7 id) (N.shiftl 1 bit) =? 0)
  end.
(* cpusupport_*.c: CPUSUPPORT_FEATURE_DECL functions; [cpuid_built]: whether
   CPUSUPPORT_X86_CPUID and _CPUID_COUNT were defined.  Simplification: the ARM
   functions (cpusupport_arm_aes.c:27-62, cpusupport_arm_sha256.c:27-62) are a
   single bit of the auxiliary vector. *)
Definition detect (cpuid_built : bool) (c : cpu) (f : feature) : bool :=
  match f with
  | F_aesni => cpuid_built && detect_leaf1 (c_id c) fst 25
  | F_rdrand => cpuid_built && detect_leaf1 (c_id c) fst 30
  | F_ssse3 => cpuid_built && detect_leaf1 (c_id c) fst 9
  | F_sse2 => cpuid_built && detect_leaf1 (c_id c) snd 26
  | F_shani => cpuid_built && detect_leaf7 (c_id c) 29
  | F_arm_aes => c_arm_aes c
  | F_arm_sha256 => c_arm_sha2 c
  end.
(* equality of features; not code *)
Definition feature_eqb (a b : feature) : bool :=
  match a, b with
  | F_aesni, F_aesni | F_rdrand, F_rdrand | F_shani, F_shani | F_sse2, F_sse2 | F_ssse3, F_ssse3
  | F_arm_aes, F_arm_aes | F_arm_sha256, F_arm_sha256 => true
  | _, _ => false
  end.
(* cpusupport.h:40-44: the _present and _init variables of each feature *)
Record fstate := mk_fs { fs_present : bool; fs_init : bool }.
(* cpusupport.h:40-44: those variables for all features *)
Definition cpu_cache := feature -> fstate.
(* cpusupport.h:87-88 (CPUSUPPORT_FEATURE_DECL): all 0 at start *)
Definition cache0 : cpu_cache := fun _ => mk_fs false false.
(* cpusupport.h:47-59 cpusupport_ARCH_FEATURE(): [det] is the answer the
   detection function would give now *)
Definition cpusupport (det : feature -> bool) (c : cpu_cache) (f : feature) : bool * cpu_cache :=
  if fs_present (c f) then (true, c)
  else if fs_init (c f) then (false, c)
  else (det f, fun g => if feature_eqb g f then mk_fs (det f) true else c g).

(** cpusupport_x() && cpusupport_y() ..., evaluated from left to right. *)
Fixpoint cpusupport_all (det : feature -> bool) (c : cpu_cache) (fs : list feature) : bool * cpu_cache :=
  match fs with
  | [] => (true, c)
  | f :: fs' => let '(b, c) := cpusupport det c f in if b then cpusupport_all det c fs' else (false, c)
  end.

(** ---- sha256.c ---- *)
Definition transform_fn := list N -> bytes -> list N -> list N -> res (list N).
(* sha256.c:178-180: 0x00 0x01 ... 0x3f *)
Definition test_block : bytes := map N.of_nat (seq 0 64).
(** Which CPUSUPPORT macros were defined at build time. *)
Definition build := feature -> bool.
(** A warning "Disabling ... due to failed self-test" (cpusupport.h:111-112). *)
Inductive hw_warning := Warn_sha (h : sha_hw) | Warn_aes (h : aes_hw).

Section Sha.
  Context (built : build) (det : feature -> bool) (f : sha_hw -> transform_fn) (W S_ : list N).
  (* sha256.c:139-161 hwtest: true if it returns zero *)
  Definition hwtest (func : transform_fn) : res bool :=
    sw <- SHA256_Transform_sw initial_state test_block W ;;
    hw <- func initial_state test_block W S_ ;;
    Ok (list_eqb sw hw).
  (* cpusupport.h:98-115 CPUSUPPORT_VALIDATE followed by the rest [k] *)
  Definition sha_validate (c : cpu_cache) (ws : list hw_warning) (h : sha_hw) (feats : list feature)
    (k : cpu_cache -> list hw_warning -> res (cpu_cache * sha_hw * list hw_warning)) :=
    let '(ok, c) := cpusupport_all det c feats in
    if (ok : bool) then
      t <- hwtest (f h) ;;
      if (t : bool) then Ok (c, h, ws) else k c (ws ++ [Warn_sha h])
    else k c ws.
  (* sha256.c:163-196 hwaccel_init; None is HW_UNSET *)
  Definition sha_hwaccel_init (c : cpu_cache) (st : option sha_hw) : res (cpu_cache * sha_hw * list hw_warning) :=
    match st with
    | Some h => Ok (c, h, [])
    | None =>
        let k3 c ws := Ok (c, HW_SOFTWARE, ws) in
        let k2 c ws := if built F_arm_sha256 then sha_validate c ws HW_ARM_SHA256 [F_arm_sha256] k3 else k3 c ws in
        let k1 c ws := if built F_sse2 then sha_validate c ws HW_X86_SSE2 [F_sse2] k2 else k2 c ws in
        if built F_shani && built F_ssse3 then sha_validate c [] HW_X86_SHANI [F_shani; F_ssse3] k1 else k1 c []
    end.
End Sha.
(** The routines as they are in /repo (sha256.c:104-133 shims: the scratch
    arrays are not used by the SHA-NI and ARM code). *)
Definition sha_real (h : sha_hw) : transform_fn := fun st blk W S_ => SHA256_Transform h st blk W.

(** ---- crypto_aes.c ---- *)
(** A one-shot encryption: key bytes, key length, plaintext; None: it failed. *)
Definition oneshot := bytes -> nat -> bytes -> res (option bytes).
(* crypto_aes.c:43-70 testcases *)
Record aes_test := mk_test { t_key : bytes; t_len : nat; t_ptext : bytes; t_ctext : bytes }.
(* crypto_aes.c:43-70 testcases: the plaintext they share *)
Definition aes_ptext : bytes :=
  [0x00; 0x11; 0x22; 0x33; 0x44; 0x55; 0x66; 0x77; 0x88; 0x99; 0xaa; 0xbb; 0xcc; 0xdd; 0xee; 0xff].
(* crypto_aes.c:43-70 testcases *)
Definition aes_tests : list aes_test :=
  [ mk_test ([0x00; 0x01; 0x02; 0x03; 0x04; 0x05; 0x06; 0x07; 0x08; 0x09; 0x0a; 0x0b; 0x0c; 0x0d; 0x0e; 0x0f] ++ repeat 0 16) 16 aes_ptext
      [0x69; 0xc4; 0xe0; 0xd8; 0x6a; 0x7b; 0x04; 0x30; 0xd8; 0xcd; 0xb7; 0x80; 0x70; 0xb4; 0xc5; 0x5a];
    mk_test [0x00; 0x01; 0x02; 0x03; 0x04; 0x05; 0x06; 0x07; 0x08; 0x09; 0x0a; 0x0b; 0x0c; 0x0d; 0x0e; 0x0f;
             0x10; 0x11; 0x12; 0x13; 0x14; 0x15; 0x16; 0x17; 0x18; 0x19; 0x1a; 0x1b; 0x1c; 0x1d; 0x1e; 0x1f] 32 aes_ptext
      [0x8e; 0xa2; 0xb7; 0xca; 0x51; 0x67; 0x45; 0xbf; 0xea; 0xfc; 0x49; 0x90; 0x4b; 0x49; 0x60; 0x89] ].
(* crypto_aes.c:72-102 functest: true if it returns zero *)
Fixpoint functest_loop (func : oneshot) (ts : list aes_test) : res bool :=
  match ts with
  | [] => Ok true
  | t :: ts' =>
      _ <- assert_ (Nat.eqb (t_len t) 16 || Nat.eqb (t_len t) 32) ;;
      o <- func (t_key t) (t_len t) (t_ptext t) ;;
      match o with
      | None => Ok false
      | Some ct => if negb (list_eqb (t_ctext t) ct) then Ok false else functest_loop func ts'
      end
  end.
(* crypto_aes.c:72-102 functest *)
Definition functest (func : oneshot) : res bool := functest_loop func aes_tests.
(* crypto_aes.c:104-145 x86_aesni_oneshot, arm_aes_oneshot; [mem]: malloc
   succeeds, [old]: uninitialised memory *)
Definition x86_aesni_oneshot (mem : bool) (old : list bytes) : oneshot := fun key len ptext =>
  k <- crypto_aes_key_expand_aesni mem old key len ;;
  match k with
  | None => Ok None
  | Some k => ct <- crypto_aes_encrypt_block_aesni ptext k ;; Ok (Some ct)
  end.
(* crypto_aes.c:126-145 arm_aes_oneshot *)
Definition arm_aes_oneshot (mem : bool) (old : list bytes) : oneshot := fun key len ptext =>
  k <- crypto_aes_key_expand_arm mem old key len ;;
  match k with
  | None => Ok None
  | Some k => ct <- crypto_aes_encrypt_block_arm ptext k ;; Ok (Some ct)
  end.
(* crypto_aes.c:147-167 openssl_oneshot, with OpenSSL's AES taken to be FIPS 197 *)
Definition openssl_oneshot : oneshot := fun key len ptext =>
  k <- rd key 0 len ;; Ok (Some (aes_encrypt k ptext)).

Section Aes.
  Context (built : build) (det : feature -> bool) (f_x86 f_arm f_ssl : oneshot).
  (* crypto_aes.c:181-188: one CPUSUPPORT_VALIDATE (cpusupport.h:104-115), [k] is what follows *)
  Definition aes_validate (c : cpu_cache) (ws : list hw_warning) (h : aes_hw) (feat : feature) (func : oneshot)
    (k : cpu_cache -> list hw_warning -> res (cpu_cache * aes_hw * list hw_warning)) :=
    let '(ok, c) := cpusupport det c feat in
    if (ok : bool) then
      t <- functest func ;;
      if (t : bool) then Ok (c, h, ws) else k c (ws ++ [Warn_aes h])
    else k c ws.
  (* crypto_aes.c:169-198 hwaccel_init (and lines 19-33: without hardware
     support compiled in there is neither variable nor test) *)
  Definition aes_hwaccel_init (c : cpu_cache) (st : option aes_hw) : res (cpu_cache * aes_hw * list hw_warning) :=
    if negb (built F_aesni || built F_arm_aes) then Ok (c, AES_SOFTWARE, []) else
    match st with
    | Some h => Ok (c, h, [])
    | None =>
        let k2 c ws := t <- functest f_ssl ;; if (t : bool) then Ok (c, AES_SOFTWARE, ws) else Abort in
        let k1 c ws := if built F_arm_aes then aes_validate c ws AES_ARM_AES F_arm_aes f_arm k2 else k2 c ws in
        if built F_aesni then aes_validate c [] AES_X86_AESNI F_aesni f_x86 k1 else k1 c []
    end.
  (* crypto_aes.c:207-227 crypto_aes_can_use_intrinsics *)
  Definition crypto_aes_can_use_intrinsics (c : cpu_cache) (st : option aes_hw)
    : res (cpu_cache * aes_hw * list hw_warning * N) :=
    ' (c, h, ws) <- aes_hwaccel_init c st ;;
    let r := if built F_aesni && match h with AES_X86_AESNI => true | _ => false end then 1
             else if built F_arm_aes && match h with AES_ARM_AES => true | _ => false end then 2 else 0 in
    Ok (c, h, ws, r).
  (* crypto_aesctr.c:44-74 hwaccel_init: the state of crypto_aes.c and that of
     crypto_aesctr.c *)
  Definition aesctr_hwaccel_init (c : cpu_cache) (st : option aes_hw) (cst : option aes_hw)
    : res (cpu_cache * option aes_hw * aes_hw * list hw_warning) :=
    if negb (built F_aesni || built F_arm_aes) then Ok (c, st, AES_SOFTWARE, []) else
    match cst with
    | Some h => Ok (c, st, h, [])
    | None =>
        ' (c, h, ws, r) <- crypto_aes_can_use_intrinsics c st ;;
        if (r =? 1) && built F_aesni then Ok (c, Some h, AES_X86_AESNI, ws)
        else if (r =? 2) && built F_arm_aes then Ok (c, Some h, AES_ARM_AES, ws)
        else if r =? 0 then Ok (c, Some h, AES_SOFTWARE, ws)
        else Abort
    end.
End Aes.
