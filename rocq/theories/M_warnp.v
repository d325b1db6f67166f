(** Model of libcperciva/util/warnp.c and warnp.h, with the syslog mode, and of
    libcperciva/util/asprintf.c.  Formatting a message is an arbitrary text (a C
    string); what a format directive prints is not modelled here.  Formatting
    for syslog does not fail (its return value is not looked at by the code). *)
From Coq Require Import String.
From Verif Require Import Base SpecAscii M_print_error.
Local Open Scope list_scope.
Local Open Scope N_scope.

(** vsnprintf(buf, n, ...) for the text: at most n bytes are written, the last
    one a NUL (ISO C 7.21.6.12). *)
Definition vsnprintf (text buf : bytes) (n : nat) : res bytes :=
  match n with O => Ok buf | S n' => wr buf 0 (firstn n' text ++ [0]) end.
(** The C string in a buffer; without a NUL, reading it is undefined. *)
Fixpoint cstr (buf : bytes) : res bytes :=
  match buf with
  | [] => UB
  | c :: t => if c =? 0 then Ok [] else s <- cstr t ;; Ok (c :: s)
  end.

(** What leaves the program. *)
Inductive out := O_stderr (t : bytes) | O_syslog (prio : Z) (t : bytes) | O_closelog.
(* warnp.c:10-13, the heap (the blocks in use) and errno; the name is the block
   it is in and its text *)
Record wstate := mk_wst { wt_live : list nat; wt_init : bool; wt_name : option (nat * bytes); wt_syslog : bool; wt_prio : Z; wt_errno : N }.
(* warnp.c:10-13; LOG_WARNING is 4 *)
Definition wst0 (live : list nat) (errno : N) : wstate := mk_wst live false None false 4 errno.

(** free(p): NULL is ignored, a block not in use is undefined behaviour *)
Definition wfree (live : list nat) (p : option (nat * bytes)) : res (list nat) :=
  match p with
  | None => Ok live
  | Some (i, _) => if existsb (Nat.eqb i) live then Ok (remove Nat.eq_dec i live) else UB
  end.
(** a block not in use *)
Definition fresh_block (live : list nat) : nat := S (list_max live).
(* warnp.c:32-53 warnp_setprogname; [mem]: strdup succeeds *)
Definition wsetprogname (progname : bytes) (mem : bool) (st : wstate) : res wstate :=
  live <- wfree (wt_live st) (wt_name st) ;;
  let p := last_segment progname progname in
  let '(live, name) := if mem then (fresh_block live :: live, Some (fresh_block live, p)) else (live, None) in
  Ok (mk_wst live true name (wt_syslog st) (wt_prio st) (wt_errno st)).
(* warnp.c:15-26 warnp_atexit, if registered (48-52) *)
Definition wexit (st : wstate) : res (wstate * list out) :=
  if wt_init st then
    let o := if wt_syslog st then [O_closelog] else [] in
    live <- wfree (wt_live st) (wt_name st) ;;
    Ok (mk_wst live true None (wt_syslog st) (wt_prio st) (wt_errno st), o)
  else Ok (st, []).
(* warnp.c:143-152 warnp_syslog *)
Definition wsyslog (enable : bool) (st : wstate) : wstate * list out :=
  (mk_wst (wt_live st) (wt_init st) (wt_name st) enable (wt_prio st) (wt_errno st),
   if wt_syslog st && negb enable then [O_closelog] else []).
(* warnp.c:159-164 warnp_syslog_priority *)
Definition wpriority (p : Z) (st : wstate) : wstate :=
  mk_wst (wt_live st) (wt_init st) (wt_name st) (wt_syslog st) p (wt_errno st).
(* errno = e *)
Definition set_errno (e : N) (st : wstate) : wstate :=
  mk_wst (wt_live st) (wt_init st) (wt_name st) (wt_syslog st) (wt_prio st) e.

Section Warn.
  (** strerror; the bytes on the stack where msgbuf is *)
  Context (strerror : N -> bytes) (junk : nat -> N).
  (* warnp.h:15 *)
  Definition MAX_LINE : nat := 4095.
  (* warnp.c:60, 102 msgbuf *)
  Definition msgbuf0 : bytes := map junk (seq 0 (MAX_LINE + 1)).
  (* warnp.c:72, 114: (name != NULL) ? name : "(unknown)" *)
  Definition wname (st : wstate) : bytes := match wt_name st with Some (_, n) => n | None => str "(unknown)" end.
  (** fmt and its arguments: NULL, or the formatted text *)
  (* warnp.c:56-95 warn and 97-136 warnx ([suffix]: print ": strerror").  [clob]
     is the value the output functions leave in errno. *)
  Definition wemit (suffix : bool) (fmt : option bytes) (clob : N) (st : wstate) : res (wstate * list out) :=
    let saved_errno := wt_errno st in                                       (* 64, 106 *)
    o <- (if negb (wt_syslog st) then
            Ok (O_stderr (wname st ++ (match fmt with Some t => str ": " ++ t | None => [] end) ++
                          (if suffix then str ": " ++ strerror saved_errno else []) ++ [newline]))
          else
            match fmt with
            | Some t =>
                buf <- vsnprintf t msgbuf0 (MAX_LINE + 1) ;;
                s <- cstr buf ;;
                Ok (O_syslog (wt_prio st) (s ++ (if suffix then str ": " ++ strerror saved_errno else []) ++ [newline]))
            | None => Ok (O_syslog (wt_prio st) ((if suffix then strerror saved_errno else []) ++ [newline]))
            end) ;;
    let st := set_errno clob st in
    Ok (set_errno saved_errno st, [o]).                                    (* 94, 135 *)
  Definition wwarn := wemit true.
  (* warnp.c:97-136 warnx *)
  Definition wwarnx := wemit false.
  (* warnp.h:60-67 *)
  Definition wwarnp (fmt : option bytes) (clob : N) (st : wstate) : res (wstate * list out) :=
    if negb (wt_errno st =? 0) then ' (st, o) <- wwarn fmt clob st ;; Ok (set_errno 0 st, o)
    else wwarnx fmt clob st.
  (* warnp.h:74-78 *)
  Definition wwarn0 (fmt : option bytes) (clob : N) (st : wstate) : res (wstate * list out) :=
    ' (st, o) <- wwarnx fmt clob st ;; Ok (set_errno 0 st, o).

  (** What a program can do with this: call the functions in any order; other
      calls of the program set errno. *)
  Inductive wcall :=
  | C_setprogname (p : bytes) (mem : bool) | C_syslog (enable : bool) | C_priority (p : Z)
  | C_warn (fmt : option bytes) (clob : N) | C_warnx (fmt : option bytes) (clob : N)
  | C_warnp (fmt : option bytes) (clob : N) | C_warn0 (fmt : option bytes) (clob : N)
  | C_errno (e : N).
  (* one such call *)
  Definition wcall_do (c : wcall) (st : wstate) : res (wstate * list out) :=
    match c with
    | C_setprogname p mem => st <- wsetprogname p mem st ;; Ok (st, [])
    | C_syslog e => Ok (wsyslog e st)
    | C_priority p => Ok (wpriority p st, [])
    | C_warn f k => wwarn f k st
    | C_warnx f k => wwarnx f k st
    | C_warnp f k => wwarnp f k st
    | C_warn0 f k => wwarn0 f k st
    | C_errno e => Ok (set_errno e st, [])
    end.
  (* a sequence of such calls *)
  Fixpoint wrun (cs : list wcall) (st : wstate) : res (wstate * list out) :=
    match cs with
    | [] => Ok (st, [])
    | c :: cs => ' (st, o) <- wcall_do c st ;; ' (st, o') <- wrun cs st ;; Ok (st, o ++ o')
    end.
End Warn.

(** ---- asprintf.c ---- *)
(** vsnprintf's result in asprintf: the text's length, or a failure.  The two
    calls (lines 20 and 34) may fail independently. *)
(* asprintf.c:11-49 asprintf: the string in the new block (with its block
   number) or -1; [fail1], [fail2]: vsnprintf fails; [mem]: malloc succeeds;
   [intmax]: INT_MAX, beyond which vsnprintf fails. *)
Definition asprintf (junk : nat -> N) (intmax : N) (fail1 mem fail2 : bool) (text : bytes) (live : list nat) : res (list nat * option (Z * (nat * bytes))) :=
  let too_long := (intmax <? N.of_nat (List.length text)) in
  if fail1 || too_long then Ok (live, None) else                            (* 19-25 *)
  let buflen := S (List.length text) in                                     (* 26 *)
  if negb mem then Ok (live, None) else                                     (* 28-30 *)
  let i := fresh_block live in
  let live := i :: live in
  buf <- vsnprintf text (map junk (seq 0 buflen)) buflen ;;                 (* 33-35 *)
  if fail2 || too_long then live <- wfree live (Some (i, buf)) ;; Ok (live, None)     (* 37-39, 44-48 *)
  else Ok (live, Some (Z.of_nat (List.length text), (i, buf))).
