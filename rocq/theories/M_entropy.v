(** Models of libcperciva/util/entropy.c, libcperciva/crypto/crypto_entropy.c and
    libcperciva/crypto/crypto_entropy_rdrand.c. *)
From Verif Require Import Base SpecBytes M_sha256_tr M_simd M_sha256_hw M_sha256.

(* ---------------- entropy.c --------------------------------------------- *)
(** What the operating system does during one entropy_read:
    [oe_malloc]: malloc succeeds; [oe_open]: open("/dev/urandom") succeeds;
    [oe_read i]: outcome of the i-th read(): None for -1, otherwise bytes made
    available, of which at most the requested number is delivered ([] is
    EOF); [oe_eintr]: how many close() calls are interrupted;
    [oe_close]: whether the last close() succeeds. *)
Record os_ent := mk_os {
  oe_malloc : bool; oe_open : bool; oe_read : nat -> option bytes; oe_eintr : nat; oe_close : bool }.
(** System calls made, in order. *)
Inductive ent_event :=
| Ev_open (ok : bool)
| Ev_read (want : N) (got : option bytes)
| Ev_close_eintr
| Ev_close (ok : bool)      (* close() returned 0, or -1 with another errno *)
| Ev_malloc (ok : bool)
| Ev_free.

Section EntropyRead.
  Context (os : os_ent).
  (* entropy.c:67-98 entropy_read_fill, the loop; i: number of reads so far.
     Returns the bytes stored (None on failure) and the calls made.  [fuel]
     bounds the iterations (every read delivers at least one byte). *)
  Fixpoint fill_loop (fuel i : nat) (buflen : N) : res (option bytes * list ent_event) :=
    if 0 <? buflen then
      match fuel with
      | O => UB
      | S f =>
          match oe_read os i with
          | None => Ok (None, [Ev_read buflen None])
          | Some d =>
              let got := firstn (N.to_nat buflen) d in
              let lenread := N.of_nat (length got) in
              if lenread =? 0 then Ok (None, [Ev_read buflen (Some [])]) else
              ' (r, ev) <- fill_loop f (S i) (w64 (2 ^ 64 + buflen - lenread)) ;;
              Ok (option_map (app got) r, Ev_read buflen (Some got) :: ev)
          end
      end
    else Ok (Some [], []).
  (* <limits.h> SSIZE_MAX on a machine with 64-bit ssize_t *)
  Definition SSIZE_MAX : N := 2 ^ 63 - 1.
  (* entropy.c:62-98 entropy_read_fill *)
  Definition entropy_read_fill (buflen : N) : res (option bytes * list ent_event) :=
    _ <- assert_ (buflen <=? SSIZE_MAX) ;;
    fill_loop (N.to_nat buflen) 0 buflen.
  (* entropy.c:100-131 entropy_read_done *)
  Definition entropy_read_done : bool * list ent_event :=
    (oe_close os, repeat Ev_close_eintr (oe_eintr os) ++ [Ev_close (oe_close os); Ev_free]).
  (* entropy.c:133-173 entropy_read (with entropy_read_init, 32-65).  On failure
     the contents of the caller's buffer are not used by any caller. *)
  Definition entropy_read (buflen : N) : res (option bytes * list ent_event) :=
    _ <- assert_ (buflen <=? SSIZE_MAX) ;;
    if negb (oe_malloc os) then Ok (None, [Ev_malloc false]) else
    if negb (oe_open os) then Ok (None, [Ev_malloc true; Ev_open false; Ev_free]) else
    ' (r, ev) <- entropy_read_fill buflen ;;
    let '(ok, ev') := entropy_read_done in
    let ev := Ev_malloc true :: Ev_open true :: ev ++ ev' in
    match r with
    | None => Ok (None, ev)
    | Some d => if ok then Ok (Some d, ev) else Ok (None, ev)
    end.
End EntropyRead.

(* ---------------- crypto_entropy.c -------------------------------------- *)
(* crypto_entropy.c:21-30: static drbg and instantiated *)
Record drbg := mk_drbg { d_inst : bool; d_Key : bytes; d_V : bytes; d_ctr : N }.
(** Environment of a crypto_entropy_read call: the k-th entropy_read sees
    [ce_os k]; [ce_rdrand]: compiled in and reported by the CPU;
    [ce_step k i]: the i-th RDRAND instruction executed after the k-th
    entropy_read: the 32-bit value delivered, or None if it reports failure. *)
Record ent_env := mk_ee {
  ce_os : nat -> os_ent; ce_rdrand : bool; ce_step : nat -> nat -> option N }.
(* crypto_entropy_rdrand.c:18-35 generate_seed_rdrand(buf, len): from element i
   on, [n] elements left; the array [buf] is a list of 32-bit words.  None if
   it returns 1. *)
Fixpoint generate_seed_rdrand (step : nat -> option N) (i n : nat) (buf : list N) : res (option (list N)) :=
  match n with
  | O => Ok (Some buf)
  | S n' =>
      match step i with
      | None => Ok None
      | Some v => buf <- wr buf i [v] ;; generate_seed_rdrand step (S i) n' buf
      end
  end.
(* crypto_entropy.c:32 *)
Definition RESEED_INTERVAL : N := 256.
(* crypto_entropy.c:35 *)
Definition GENERATE_MAXLEN : nat := N.to_nat 65536.

Section CryptoEntropy.
  Context (hw : sha_hw) (junk : nat -> N) (E : ent_env).

  (* crypto_entropy.c:96-137 update *)
  Definition update (st : drbg) (data : bytes) : res drbg :=
    let K := d_Key st in
    Vx <- wr (scratch_bytes junk 33) 0 (d_V st) ;;
    Vx <- wr Vx 32 [0x00] ;;
    ctx <- HMAC_SHA256_Init hw junk (hmac_junk junk) K ;;
    ctx <- HMAC_SHA256_Update hw junk ctx Vx ;;
    ctx <- HMAC_SHA256_Update hw junk ctx data ;;
    ' (K, ctx) <- HMAC_SHA256_Final hw junk ctx ;;
    V <- rd Vx 0 32 ;;
    V <- HMAC_SHA256_Buf hw junk K V ;;
    Vx <- wr Vx 0 V ;;
    ' (K, Vx) <-
      (if negb (Nat.eqb (length data) 0) then
         Vx <- wr Vx 32 [0x01] ;;
         ctx <- HMAC_SHA256_Init hw junk ctx K ;;
         ctx <- HMAC_SHA256_Update hw junk ctx Vx ;;
         ctx <- HMAC_SHA256_Update hw junk ctx data ;;
         ' (K, _) <- HMAC_SHA256_Final hw junk ctx ;;
         V <- rd Vx 0 32 ;;
         V <- HMAC_SHA256_Buf hw junk K V ;;
         Vx <- wr Vx 0 V ;;
         Ok (K, Vx)
       else Ok (K, Vx)) ;;
    Key <- rd K 0 32 ;;
    V <- rd Vx 0 32 ;;
    Ok (mk_drbg (d_inst st) Key V (d_ctr st)).
  (* crypto_entropy.c:43-56 update_from_rdrand, guarded as in 77-81 / 157-161;
     [buf] starts out uninitialised.  Seen as bytes: x86 stores the least
     significant byte of an unsigned int first. *)
  Definition update_from_rdrand (k : nat) (st : drbg) : res drbg :=
    if ce_rdrand E then
      r <- generate_seed_rdrand (ce_step E k) 0 8 (map junk (seq 0 8)) ;;
      match r with
      | None => Ok st
      | Some buf => update st (flat_map (le_bytes 4) buf)
      end
    else Ok st.
  (* crypto_entropy.c:62-90 instantiate; k: index of the entropy_read.  The
     boolean is true on success. *)
  Definition instantiate (k : nat) (st : drbg) : res (bool * drbg) :=
    ' (r, _) <- entropy_read (ce_os E k) 48 ;;
    match r with
    | None => Ok (false, st)
    | Some seed_material =>
        let st := mk_drbg (d_inst st) (repeat 0x00 32) (repeat 0x01 32) 1 in
        st <- update st seed_material ;;
        st <- update_from_rdrand k st ;;
        Ok (true, st)
    end.
  (* crypto_entropy.c:143-169 reseed *)
  Definition reseed (k : nat) (st : drbg) : res (bool * drbg) :=
    ' (r, _) <- entropy_read (ce_os E k) 32 ;;
    match r with
    | None => Ok (false, st)
    | Some seed_material =>
        st <- update st seed_material ;;
        st <- update_from_rdrand k st ;;
        Ok (true, mk_drbg (d_inst st) (d_Key st) (d_V st) 1)
    end.
  (* crypto_entropy.c:186-193: for (bufpos = 0; bufpos < buflen; bufpos += 32);
     the bytes copied to &buf[bufpos] in each round follow one another *)
  Fixpoint generate_loop (fuel bufpos buflen : nat) (st : drbg) : res (bytes * drbg) :=
    if Nat.ltb bufpos buflen then
      match fuel with
      | O => UB
      | S f =>
          V <- HMAC_SHA256_Buf hw junk (d_Key st) (d_V st) ;;
          let st := mk_drbg (d_inst st) (d_Key st) V (d_ctr st) in
          out <- (if Nat.leb 32 (buflen - bufpos) then rd V 0 32 else rd V 0 (buflen - bufpos)) ;;
          ' (outs, st) <- generate_loop f (bufpos + 32) buflen st ;;
          Ok (out ++ outs, st)
      end
    else Ok ([], st).
  (* crypto_entropy.c:178-200 generate *)
  Definition generate (buflen : nat) (st : drbg) : res (bytes * drbg) :=
    _ <- assert_ (Nat.leb buflen GENERATE_MAXLEN) ;;
    _ <- assert_ (d_ctr st <=? RESEED_INTERVAL) ;;
    ' (out, st) <- generate_loop buflen 0 buflen st ;;
    st <- update st [] ;;
    Ok (out, mk_drbg (d_inst st) (d_Key st) (d_V st) (w32 (d_ctr st + 1))).
  (* crypto_entropy.c:222-241: while (buflen > 0); k: index of the next entropy_read *)
  Fixpoint read_loop (fuel k buflen : nat) (st : drbg) : res (option bytes * drbg) :=
    if Nat.ltb 0 buflen then
      match fuel with
      | O => UB
      | S f =>
          let need := RESEED_INTERVAL <? d_ctr st in
          ' (ok, st) <- (if need then reseed k st else Ok (true, st)) ;;
          if negb ok then Ok (None, st) else
          let k := if need then S k else k in
          let bytes_to_provide := if Nat.ltb GENERATE_MAXLEN buflen then GENERATE_MAXLEN else buflen in
          ' (out, st) <- generate bytes_to_provide st ;;
          ' (r, st) <- read_loop f k (buflen - bytes_to_provide) st ;;
          Ok (option_map (app out) r, st)
      end
    else Ok (Some [], st).
  (* crypto_entropy.c:206-245 crypto_entropy_read: None if it returns -1 *)
  Definition crypto_entropy_read (st : drbg) (buflen : nat) : res (option bytes * drbg) :=
    let fresh := negb (d_inst st) in
    ' (ok, st) <- (if fresh then instantiate 0 st else Ok (true, st)) ;;
    if negb ok then Ok (None, st) else
    let st := if fresh then mk_drbg true (d_Key st) (d_V st) (d_ctr st) else st in
    read_loop buflen (if fresh then 1 else 0)%nat buflen st.
End CryptoEntropy.

(** The static initial state: instantiated = 0 and zeroed memory. *)
Definition drbg_initial : drbg := mk_drbg false (repeat 0 32) (repeat 0 32) 0.
(** A history of calls (request length and environment of each): all results,
    final state.  A failing call ends nothing: the next call goes on from the
    state it left. *)
Fixpoint entropy_history (hw : sha_hw) (junk : nat -> N) (st : drbg) (calls : list (ent_env * nat))
  : res (list (option bytes) * drbg) :=
  match calls with
  | [] => Ok ([], st)
  | (E, n) :: cs =>
      ' (r, st) <- crypto_entropy_read hw junk E st n ;;
      ' (rs, st) <- entropy_history hw junk st cs ;;
      Ok (r :: rs, st)
  end.
