(** The memory management of crypto_scrypt: lib-platform/crypto/crypto_scrypt.c:55-166
    (the computation itself is in M_smix, crypto_scrypt_internal) and
    lib/crypto/crypto_scrypt-ref.c:213-283. *)
From Verif Require Import Base M_smix.

(** Live memory regions: by number, how they were obtained, and their size. *)
Inductive rkind := R_heap | R_map.
(* A region of memory in use *)
Record region := mk_rg { rg_id : nat; rg_kind : rkind; rg_size : N }.
(* The regions in use, and the next number *)
Record amem := mk_am { am_next : nat; am_live : list region }.
(** malloc, posix_memalign, mmap *)
Definition obtain (ok : bool) (k : rkind) (size : N) (h : amem) : option nat * amem :=
  if ok then (Some (am_next h), mk_am (S (am_next h)) (mk_rg (am_next h) k size :: am_live h)) else (None, h).
(* the region with a number, if in use *)
Fixpoint am_find (i : nat) (l : list region) : option region :=
  match l with [] => None | g :: t => if Nat.eqb i (rg_id g) then Some g else am_find i t end.
(* free, munmap: the region is no longer in use *)
Definition am_remove (i : nat) (h : amem) : amem :=
  mk_am (am_next h) (filter (fun g => negb (Nat.eqb i (rg_id g))) (am_live h)).
(** free(): undefined unless the region is live and came from the heap *)
Definition free_ (i : nat) (h : amem) : res amem :=
  match am_find i (am_live h) with
  | Some (mk_rg _ R_heap _) => Ok (am_remove i h)
  | _ => UB
  end.
(** munmap() of a whole mapping; [ok]: it returns 0 *)
Definition munmap_ (ok : bool) (i : nat) (size : N) (h : amem) : res (bool * amem) :=
  match am_find i (am_live h) with
  | Some (mk_rg _ R_map s) => if s =? size then Ok (ok, if ok then am_remove i h else h) else UB
  | _ => UB
  end.

(** Build configuration: HAVE_POSIX_MEMALIGN; MAP_ANON and HAVE_MMAP. *)
Record mem_cfg := mk_mc { mc_memalign : bool; mc_mmap : bool }.
(** Usable sizes behind the pointers B, XY and V during the computation. *)
Record workspace := mk_ws3 { ws_B : nat; ws_XY : nat; ws_V : nat }.

Section ScryptAlloc.
  Context (cfg : mem_cfg) (szb : N).
  (* crypto_scrypt.c:101-137: size asked for to have [n] usable bytes *)
  Definition request (n : N) : N := if mc_memalign cfg then n else wsz szb (n + 63).
  (* crypto_scrypt.c:55-166 crypto_scrypt_internal.  Result: return code; the
     regions in use if the computation was carried out, and the memory at that
     time; the memory on return.  [al_unmap env] tells whether munmap succeeds. *)
  Definition scrypt_alloc (env : alloc_env) (N_ r p buflen : N) (h : amem)
    : res (scrypt_rc * option (workspace * amem) * amem) :=
    match scrypt_checks szb N_ r p buflen with
    | Some e => Ok (e, None, h)
    | None =>
        match obtain (al_B env) R_heap (request (size_B szb r p)) h with
        | (None, h) => Ok (SC_ENOMEM, None, h)                                     (* err0 *)
        | (Some B0, h) =>
            match obtain (al_XY env) R_heap (request (size_XY szb r)) h with
            | (None, h) => h <- free_ B0 h ;; Ok (SC_ENOMEM, None, h)              (* err1 *)
            | (Some XY0, h) =>
                match (if mc_mmap cfg then obtain (al_V env) R_map (size_V szb r N_) h
                       else obtain (al_V env) R_heap (request (size_V szb r N_)) h) with
                | (None, h) => h <- free_ XY0 h ;; h <- free_ B0 h ;; Ok (SC_ENOMEM, None, h)   (* err2 *)
                | (Some V0, h) =>
                    let used := Some (mk_ws3 B0 XY0 V0, h) in
                    (* 139-150: the computation *)
                    ' (ok, h) <- (if mc_mmap cfg then munmap_ (al_unmap env) V0 (size_V szb r N_) h
                                  else h <- free_ V0 h ;; Ok (true, h)) ;;
                    h <- free_ XY0 h ;;
                    h <- free_ B0 h ;;
                    Ok (if ok : bool then SC_OK else SC_MUNMAP, used, h)
                end
            end
        end
    end.
  (* crypto_scrypt-ref.c:213-283 *)
  Definition scrypt_alloc_ref (env : alloc_env) (N_ r p buflen : N) (h : amem)
    : res (scrypt_rc * option (workspace * amem) * amem) :=
    chk <- scrypt_checks_ref szb N_ r p buflen ;;
    match chk with
    | Some e => Ok (e, None, h)
    | None =>
        match obtain (al_B env) R_heap (size_B szb r p) h with
        | (None, h) => Ok (SC_ENOMEM, None, h)
        | (Some B, h) =>
            match obtain (al_XY env) R_heap (wsz szb (256 * r)) h with
            | (None, h) => h <- free_ B h ;; Ok (SC_ENOMEM, None, h)
            | (Some XY, h) =>
                match obtain (al_V env) R_heap (size_V szb r N_) h with
                | (None, h) => h <- free_ XY h ;; h <- free_ B h ;; Ok (SC_ENOMEM, None, h)
                | (Some V, h) =>
                    let used := Some (mk_ws3 B XY V, h) in
                    h <- free_ V h ;; h <- free_ XY h ;; h <- free_ B h ;; Ok (SC_OK, used, h)
                end
            end
        end
    end.
End ScryptAlloc.
