(** Model of libcperciva/util/monoclock.c and lib/scryptenc/scryptenc_cpuperf.c. *)
From Flocq Require Import Core IEEE754.BinarySingleNaN.
From Verif Require Import Base M_endian M_sha256_tr M_simd M_sha256_hw M_sha256 M_smix M_scrypt_sel M_machine M_double.

(** Result of clock_gettime / clock_getres: a time, errno ENOSYS or EINVAL, or
    another error. *)
Inductive clk := CLK_ok (sec nsec : Z) | CLK_unsup | CLK_err.
(** monoclock.c:10-17: which clocks are compiled in. *)
Record clk_cfg := mk_clk_cfg { use_monotonic : bool; use_realtime : bool }.
(** What each source would report at one moment. *)
Record clock_read := mk_read { cr_mono : clk; cr_real : clk; cr_tod : option (Z * Z) }.

Section Clock.
  Context (cfg : clk_cfg).
  (* monoclock.c:37-49: the CLOCK_REALTIME / gettimeofday part; None is failure *)
  Definition real_get (c : clock_read) : option (Z * Z) :=
    if use_realtime cfg then
      match cr_real c with
      | CLK_ok s ns => Some (s, Z.quot ns 1000)
      | _ => None
      end
    else cr_tod c.
  (* monoclock.c:24-58 monoclock_get: (tv_sec, tv_usec) *)
  Definition monoclock_get (c : clock_read) : option (Z * Z) :=
    if use_monotonic cfg then
      match cr_mono c with
      | CLK_ok s ns => Some (s, Z.quot ns 1000)
      | CLK_err => None
      | CLK_unsup => real_get c
      end
    else real_get c.
  (** (double)res.tv_sec + (double)res.tv_nsec * 0.000000001 *)
  Definition res_double (s ns : Z) : double := dadd (of_Z s) (dmul (of_Z ns) d1em9).
  (* monoclock.c:98-150 monoclock_getres *)
  Definition real_getres (c : clock_read) : option double :=
    if use_realtime cfg then
      match cr_real c with CLK_ok s ns => Some (res_double s ns) | _ => None end
    else Some (ddiv d1 (of_N 1000000)).        (* 1.0 / CLOCKS_PER_SEC *)
  (* monoclock.c:98-148 monoclock_getres *)
  Definition monoclock_getres (c : clock_read) : option double :=
    if use_monotonic cfg then
      match cr_mono c with
      | CLK_ok s ns => Some (res_double s ns)
      | CLK_err => None
      | CLK_unsup => real_getres c
      end
    else real_getres c.
End Clock.

(** long subtraction: undefined on overflow *)
Definition sub_long (a b : Z) : res Z :=
  let d := (a - b)%Z in
  if (- 2 ^ 63 <=? d)%Z && (d <? 2 ^ 63)%Z then Ok d else UB.
(* monoclock.h:7-8 timeval_diff(x, y) *)
Definition timeval_diff (x y : Z * Z) : res double :=
  ds <- sub_long (fst y) (fst x) ;;
  du <- sub_long (snd y) (snd x) ;;
  Ok (dadd (of_Z ds) (dmul (of_Z du) d1em6)).

(** The environment of one loop iteration: allocator behaviour of the
    crypto_scrypt call (and of the self-tests it may run), then a clock reading. *)
Record perf_iter := mk_iter { it_env1 : alloc_env; it_env2 : alloc_env; it_env : alloc_env; it_clock : clock_read }.
(** The environment of one scryptenc_cpuperf call.  The loops run until the
    clock has advanced; their environment is the (finite) list of iterations of a
    terminating run, and if the list ends early the clock is taken to fail. *)
Record perf_env := mk_perf_env {
  pe_res : clock_read;
  pe_start1 : clock_read; pe_first1 : perf_iter; pe_rest1 : list perf_iter;
  pe_start2 : clock_read; pe_first2 : perf_iter; pe_rest2 : list perf_iter }.

Section Cpuperf.
  Context (M : machine) (cfg : clk_cfg).
  (* scryptenc_cpuperf.c:40-51 getclockdiff *)
  Definition getclockdiff (st : Z * Z) (c : clock_read) : res (option double) :=
    match monoclock_get cfg c with
    | None => Ok None
    | Some en => d <- timeval_diff st en ;; Ok (Some d)
    end.
  (** crypto_scrypt(NULL, 0, NULL, 0, N, 1, 1, NULL, 0): true if it returns 0 *)
  Definition perf_scrypt (sst : smix_state) (it : perf_iter) (N_ : N) : res (bool * smix_state) :=
    ' (rc, _, sst) <- m_crypto_scrypt M sst
                        (mk_call (it_env1 it) (it_env2 it) (it_env it) [] [] N_ 1 1 [] 0) ;;
    Ok (match rc with SC_OK => true | _ => false end, sst).
  (* scryptenc_cpuperf.c:75-85: do { ... } while (1); inl: error code *)
  Fixpoint tick_loop (sst : smix_state) (st : Z * Z) (it : perf_iter) (rest : list perf_iter)
    : res (smix_state * (rcode + unit)) :=
    ' (ok, sst) <- perf_scrypt sst it 16 ;;
    if negb ok then Ok (sst, inl SCRYPT_EKEY) else
    d <- getclockdiff st (it_clock it) ;;
    match d with
    | None => Ok (sst, inl SCRYPT_ECLOCK)
    | Some diffd =>
        if dlt d0 diffd then Ok (sst, inr tt) else
        match rest with
        | [] => Ok (sst, inl SCRYPT_ECLOCK)
        | it' :: rest' => tick_loop sst st it' rest'
        end
    end.
  (* scryptenc_cpuperf.c:90-103; returns i and diffd *)
  Fixpoint count_loop (sst : smix_state) (st : Z * Z) (resd : double) (i : N) (it : perf_iter) (rest : list perf_iter)
    : res (smix_state * (rcode + (N * double))) :=
    ' (ok, sst) <- perf_scrypt sst it 128 ;;
    if negb ok then Ok (sst, inl SCRYPT_EKEY) else
    let i := w64 (i + 512) in
    d <- getclockdiff st (it_clock it) ;;
    match d with
    | None => Ok (sst, inl SCRYPT_ECLOCK)
    | Some diffd =>
        if dlt resd diffd then Ok (sst, inr (i, diffd)) else
        match rest with
        | [] => Ok (sst, inl SCRYPT_ECLOCK)
        | it' :: rest' => count_loop sst st resd i it' rest'
        end
    end.
  (* scryptenc_cpuperf.c:58-115 scryptenc_cpuperf *)
  Definition scryptenc_cpuperf (sst : smix_state) (e : perf_env) : res (smix_state * (rcode + double)) :=
    match monoclock_getres cfg (pe_res e) with
    | None => Ok (sst, inl SCRYPT_ECLOCK)
    | Some resd =>
        match monoclock_get cfg (pe_start1 e) with
        | None => Ok (sst, inl SCRYPT_ECLOCK)
        | Some st =>
            ' (sst, r) <- tick_loop sst st (pe_first1 e) (pe_rest1 e) ;;
            match r with
            | inl rc => Ok (sst, inl rc)
            | inr _ =>
                match monoclock_get cfg (pe_start2 e) with
                | None => Ok (sst, inl SCRYPT_ECLOCK)
                | Some st =>
                    ' (sst, r) <- count_loop sst st resd 0 (pe_first2 e) (pe_rest2 e) ;;
                    match r with
                    | inl rc => Ok (sst, inl rc)
                    | inr (i, diffd) => Ok (sst, inr (ddiv (of_N i) diffd))
                    end
                end
            end
        end
    end.
End Cpuperf.
