(** Model of lib/scryptenc/scryptenc.c:70-227: display_params, pickparams,
    checkparams. *)
From Flocq Require Import Core IEEE754.BinarySingleNaN.
From Verif Require Import Base M_smix M_scrypt_sel M_machine M_double M_memlimit M_cpuperf M_humansize.

(** What display_params prints: N, r, p, the two sizes as text (the second only
    if a memory limit is known), and the time estimate and limit. *)
Record params_msg := mk_msg {
  pm_N : N; pm_r : N; pm_p : N; pm_mem : bytes; pm_avail : option bytes; pm_time : option (double * double) }.
(* scryptenc.c:70-99 display_params; [al1], [al2]: the two humansize allocations
   succeed (printing a NULL with %s is undefined) *)
Definition display_params (al1 al2 : bool) (logN : Z) (r p memlimit : N) (opps maxtime : double) : res params_msg :=
  if negb ((0 <=? logN)%Z && (logN <? 64)%Z) then UB else       (* (uint64_t)(1) << logN *)
  let N_ := w64 (N.shiftl 1 (Z.to_N logN)) in
  let mem_minimum := w64 (w32 (128 * r) * N_) in
  let expected_seconds :=
    if dlt d0 opps then ddiv (of_N (w64 (w64 (w64 (4 * N_) * r) * p))) opps else d0 in
  human_memlimit <- humansize al1 memlimit ;;
  human_mem_minimum <- humansize al2 mem_minimum ;;
  match human_mem_minimum with
  | None => UB
  | Some hm =>
      avail <- (if 0 <? memlimit
                then match human_memlimit with Some h => Ok (Some h) | None => UB end
                else Ok None) ;;
      Ok (mk_msg N_ r p hm avail (if dlt d0 opps then Some (expected_seconds, maxtime) else None))
  end.

(** Environment of a parameter decision. *)
Record params_env := mk_params_env { pv_mem : mem_env; pv_perf : perf_env; pv_al1 : bool; pv_al2 : bool }.
(** ... and the user's limits: -M, -m, -t. *)
Record limits := mk_limits { l_maxmem : N; l_maxmemfrac : double; l_maxtime : double }.

(* scryptenc.c:134-143 / 147-151: for ( *logN = 1; *logN < 63; *logN += 1)
   if ((double)checkN > maxN / 2) break; *)
Fixpoint pick_logN (fuel : nat) (logN : N) (half : double) : N :=
  match fuel with
  | O => logN
  | S f =>
      if logN <? 63 then
        let checkN := w64 (N.shiftl 1 logN) in
        if dlt half (of_N checkN) then logN else pick_logN f (logN + 1) half
      else logN
  end.
(* scryptenc.c:125-166: the choice, given the two limits *)
Definition pick_from_limits (memlimit : N) (opslimit : double) : res (N * N * N) :=
  let r := 8 in
  if dlt opslimit (ddiv (of_N memlimit) (of_N 32)) then
    let maxN := ddiv opslimit (of_N (w32 (r * 4))) in
    Ok (pick_logN 63 1 (ddiv maxN (of_N 2)), r, 1)
  else
    let maxN := of_N (memlimit / w32 (r * 128)) in
    let logN := pick_logN 63 1 (ddiv maxN (of_N 2)) in
    let checkN := w64 (N.shiftl 1 logN) in
    let maxrp := ddiv (ddiv opslimit (of_N 4)) (of_N checkN) in
    let maxrp := if dlt (of_N 0x3fffffff) maxrp then of_N 0x3fffffff else maxrp in
    q <- to_uint 32 maxrp ;;
    Ok (logN, r, q / r).
(** scryptenc.c:120-122: at least 2^15 *)
Definition floor_ops (opslimit : double) : double :=
  if dlt opslimit (of_N 32768) then of_N 32768 else opslimit.

Section Params.
  Context (M : machine) (cfg : clk_cfg).
  (* scryptenc.c:101-173 pickparams *)
  Definition pickparams (sst : smix_state) (e : params_env) (lim : limits) (verbose : bool)
    : res (smix_state * option params_msg * (rcode + (N * N * N))) :=
    m <- memtouse (m_szb M) (pv_mem e) (l_maxmem lim) (l_maxmemfrac lim) ;;
    match m with
    | None => Ok (sst, None, inl SCRYPT_ELIMIT)
    | Some memlimit =>
        ' (sst, o) <- scryptenc_cpuperf M cfg sst (pv_perf e) ;;
        match o with
        | inl rc => Ok (sst, None, inl rc)
        | inr opps =>
            let opslimit := floor_ops (dmul opps (l_maxtime lim)) in
            ' (logN, r, p) <- pick_from_limits memlimit opslimit ;;
            msg <- (if verbose then
                      d <- display_params (pv_al1 e) (pv_al2 e) (Z.of_N logN) r p memlimit opps (l_maxtime lim) ;;
                      Ok (Some d)
                    else Ok None) ;;
            Ok (sst, msg, inr (logN, r, p))
        end
    end.
  (* scryptenc.c:202-212: the limit checks *)
  Definition check_limits (memlimit : N) (opslimit : double) (logN r p : N) : rcode :=
    let N_ := w64 (N.shiftl 1 logN) in
    let toobig := (memlimit / N_) / r <? 128 in
    let tooslow := dlt (ddiv (ddiv (ddiv opslimit (of_N N_)) (of_N r)) (of_N p)) (of_N 4) in
    if toobig && tooslow then SCRYPT_EBIGSLOW
    else if toobig then SCRYPT_ETOOBIG
    else if tooslow then SCRYPT_ETOOSLOW
    else SCRYPT_OK.
  (* scryptenc.c:175-227 checkparams *)
  Definition checkparams (sst : smix_state) (e : params_env) (lim : limits)
    (logN : Z) (r p : N) (verbose force : bool) : res (smix_state * option params_msg * rcode) :=
    if (logN <? 1)%Z || (63 <? logN)%Z then Ok (sst, None, SCRYPT_EINVAL) else
    if 0x40000000 <=? w64 (r * p) then Ok (sst, None, SCRYPT_EINVAL) else
    if (r =? 0) || (p =? 0) then Ok (sst, None, SCRYPT_EINVAL) else
    if force then
      msg <- (if verbose then
                d <- display_params (pv_al1 e) (pv_al2 e) logN r p 0 d0 (l_maxtime lim) ;; Ok (Some d)
              else Ok None) ;;
      Ok (sst, msg, SCRYPT_OK)
    else
      m <- memtouse (m_szb M) (pv_mem e) (l_maxmem lim) (l_maxmemfrac lim) ;;
      match m with
      | None => Ok (sst, None, SCRYPT_ELIMIT)
      | Some memlimit =>
          ' (sst, o) <- scryptenc_cpuperf M cfg sst (pv_perf e) ;;
          match o with
          | inl rc => Ok (sst, None, rc)
          | inr opps =>
              let opslimit := dmul opps (l_maxtime lim) in
              msg <- (if verbose then
                        d <- display_params (pv_al1 e) (pv_al2 e) logN r p memlimit opps (l_maxtime lim) ;;
                        Ok (Some d)
                      else Ok None) ;;
              Ok (sst, msg, check_limits memlimit opslimit (Z.to_N logN) r p)
          end
      end.
End Params.
