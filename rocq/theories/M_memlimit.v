(** Model of lib-platform/util/memlimit.c.  What the system calls report is an
    arbitrary record; a limit that is not compiled in is [None]. *)
From Flocq Require Import Core IEEE754.BinarySingleNaN.
From Verif Require Import Base SpecBytes M_smix M_double.

(** sysctl(2): failure, or the bytes stored in the 8-byte buffer. *)
Definition sysctl_result := option bytes.
(** getrlimit(2): failure, RLIM_INFINITY, or a value. *)
Inductive rlimit_result := RL_fail | RL_infinity | RL_value (v : N).
(** sysconf(_SC_PAGE_SIZE), sysconf(_SC_PHYS_PAGES) and, if one is -1, whether
    errno is 0 or EINVAL. *)
Record sysconf_result := mk_sysconf { sc_pagesize : Z; sc_physpages : Z; sc_errno_benign : bool }.
(* What the system calls of memlimit.c report *)
Record mem_env := mk_mem_env {
  me_usermem : option sysctl_result;           (* HW_USERMEM *)
  me_memsize : option sysctl_result;           (* HW_MEMSIZE *)
  me_sysinfo : option (option (N * N));        (* HAVE_SYSINFO: totalram, mem_unit *)
  me_as : option rlimit_result;                (* RLIMIT_AS *)
  me_data : option rlimit_result;              (* USE_RLIMIT_DATA *)
  me_rss : option rlimit_result;               (* RLIMIT_RSS *)
  me_sysconf : option sysconf_result }.        (* _SC_PHYS_PAGES *)

Section Memlimit.
  Context (szb : N).
  (** The "clamp to SIZE_MAX if necessary" blocks. *)
  Definition clamp (v : N) : N := if SIZE_MAX szb <? v then SIZE_MAX szb else v.
  (* memlimit.c:69-109 memlimit_sysctl_hw *)
  Definition memlimit_sysctl_hw (s : sysctl_result) : option N :=
    match s with
    | None => None
    | Some buf =>
        if Nat.eqb (length buf) 8 then Some (clamp (le_val buf))   (* little-endian host *)
        else if Nat.eqb (length buf) 4 then Some (clamp (SIZE_MAX szb))
        else None
    end.
  (* memlimit.c:123-151 memlimit_sysinfo *)
  Definition memlimit_sysinfo (i : option (N * N)) : option N :=
    match i with
    | None => None
    | Some (totalram, mem_unit) => Some (clamp (w64 (w64 totalram * mem_unit)))
    end.
  (** One getrlimit block of memlimit.c:163-190. *)
  Definition rlimit_step (memrlimit : N) (r : option rlimit_result) : option N :=
    match r with
    | None => Some memrlimit
    | Some RL_fail => None
    | Some RL_infinity => Some memrlimit
    | Some (RL_value v) => Some (if v <? memrlimit then v else memrlimit)
    end.
  (* memlimit.c:154-203 memlimit_rlimit *)
  Definition memlimit_rlimit (e : mem_env) : option N :=
    match rlimit_step 0xffffffffffffffff (me_as e) with
    | None => None
    | Some m =>
        match rlimit_step m (me_data e) with
        | None => None
        | Some m =>
            match rlimit_step m (me_rss e) with
            | None => None
            | Some m => Some (clamp m)
            end
        end
    end.
  (** conversion of a long to uint64_t *)
  Definition u64_of_long (z : Z) : N := Z.to_N (z mod 2 ^ 64).
  (* memlimit.c:211-250 memlimit_sysconf *)
  Definition memlimit_sysconf (s : sysconf_result) : option N :=
    if (sc_pagesize s =? -1)%Z || (sc_physpages s =? -1)%Z then
      if sc_errno_benign s then Some (clamp 0xffffffffffffffff) else None
    else Some (clamp (w64 (u64_of_long (sc_pagesize s) * u64_of_long (sc_physpages s)))).
  (** "#ifdef X / if (f(&l)) return 1; / #else l = SIZE_MAX;" *)
  Definition limit_or_max {A} (f : A -> option N) (x : option A) : option N :=
    match x with None => Some (SIZE_MAX szb) | Some a => f a end.
  Definition minl (m v : N) : N := if v <? m then v else m.     (* if (m > v) m = v; *)
  (* memlimit.c:261-359 memtouse: None is the return value 1 *)
  Definition memtouse (e : mem_env) (maxmem : N) (maxmemfrac : double) : res (option N) :=
    _ <- assert_ (dlt d0 maxmemfrac && dle maxmemfrac d1) ;;
    match limit_or_max memlimit_sysctl_hw (me_usermem e),
          limit_or_max memlimit_sysctl_hw (me_memsize e),
          limit_or_max memlimit_sysinfo (me_sysinfo e),
          memlimit_rlimit e,
          limit_or_max memlimit_sysconf (me_sysconf e) with
    | Some usermem, Some memsize, Some sysinfo, Some rlimit, Some sysconf =>
        let usermem := if negb (sysconf =? SIZE_MAX szb)
                       then if usermem <? sysconf / 2 then sysconf / 2 else usermem
                       else usermem in
        let m := minl (minl (minl (minl (minl (SIZE_MAX szb) usermem) memsize) sysinfo) rlimit) sysconf in
        memavail <- to_uint szb (dmul maxmemfrac (of_N m)) ;;
        let memavail := if (0 <? maxmem) && (maxmem <? memavail) then maxmem else memavail in
        let memavail := if memavail <? 1048576 then 1048576 else memavail in
        Ok (Some memavail)
    | _, _, _, _, _ => Ok None
    end.
End Memlimit.
