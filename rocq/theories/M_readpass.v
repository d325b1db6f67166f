(** Models of libcperciva/util/readpass.c, libcperciva/util/readpass_file.c and
    lib/util/passphrase_entry.c, and of the stdio functions fgetc and fgets
    they use.

    Simplifications: warnings are recorded by their text without the errno
    suffix and without the program name; a read interrupted by a signal
    (EINTR) is a read error of the stream, and may happen at any point. *)
From Coq Require Import String.
From Verif Require Import Base SpecAscii M_stdio.
Local Open Scope list_scope.

(** ISO C fgetc. *)
Inductive getres := G_char (c : N) | G_eof | G_err.
(* ISO C fgetc *)
Definition fgetc (s : instream) : getres * instream :=
  match i_pieces s with
  | [] => (G_eof, s)
  | ([], false) :: t => (G_eof, mk_in t (i_err s))
  | ([], true) :: t => (G_err, mk_in t true)
  | ([c], false) :: t => (G_char c, mk_in t (i_err s))
  | (c :: d, e) :: t => (G_char c, mk_in ((d, e) :: t) (i_err s))
  end.
(** ISO C fgets: at most k characters are stored, stopping after a new-line. *)
Fixpoint fgets_loop (k : nat) (s : instream) : bytes * option getres * instream :=
  match k with
  | O => ([], None, s)
  | S k' =>
      match fgetc s with
      | (G_char c, s') =>
          if c =? newline then ([c], None, s')
          else let '(x, st, s'') := fgets_loop k' s' in (c :: x, st, s'')
      | (r, s') => ([], Some r, s')
      end
  end.
(** fgets(buf, n, f): None is NULL.  The string stored is the bytes returned
    followed by a NUL. *)
Definition fgets (n : nat) (s : instream) : option bytes * instream :=
  let '(x, st, s') := fgets_loop (n - 1) s in
  match st, x with
  | None, _ => (Some x, s')
  | Some G_err, _ => (None, s')
  | Some _, [] => (None, s')
  | Some _, _ => (Some x, s')
  end.
(** The C string stored at the start of a buffer: the bytes before the first NUL. *)
Fixpoint cstr (b : bytes) : bytes :=
  match b with [] => [] | c :: t => if c =? 0 then [] else c :: cstr t end.
(** The part before the first CR or LF: s[strcspn(s, "\r\n")] = 0. *)
Fixpoint before_crlf (s : bytes) : bytes :=
  match s with [] => [] | c :: t => if (c =? 13) || (c =? newline) then [] else c :: before_crlf t end.

(* readpass.c:12, readpass_file.c:10 *)
Definition MAXPASSLEN : nat := N.to_nat 2048.

(** Signals.  [S_other] is any signal the function does not handle. *)
Inductive signal := SIGALRM | SIGHUP | SIGINT | SIGPIPE | SIGQUIT | SIGTERM | SIGTSTP | SIGTTIN | SIGTTOU | S_other (n : nat).
(* readpass.c:15-19 *)
Definition badsigs : list signal := [SIGALRM; SIGHUP; SIGINT; SIGPIPE; SIGQUIT; SIGTERM; SIGTSTP; SIGTTIN; SIGTTOU].

(** What readpass does to the world, in order. *)
Inductive act :=
| A_clear                    (* gotsig[] = 0 *)
| A_catch (s : signal)       (* sigaction(s, handle), saving the old action *)
| A_uncatch (s : signal)     (* sigaction(s, saved action) *)
| A_reissue (s : signal)     (* if (gotsig[s]) raise(s) *)
| A_echo_off                 (* tcsetattr: echo disabled *)
| A_echo_back                (* tcsetattr: old settings *)
| A_prompt (t : bytes)       (* fprintf(stderr) *)
| A_warn (t : bytes)         (* warnp / warn0 *)
| A_read                     (* fgets *)
| A_close                    (* fclose(/dev/tty) *)
| A_zero.                    (* insecure_memzero of both buffers *)

(** The surroundings of a call. *)
Record rp_env := mk_rpe {
  re_tty : option instream;     (* what fopen("/dev/tty") gives *)
  re_tty_isatty : bool;         (* isatty of that stream *)
  re_stdin_isatty : bool;
  re_tcgetattr : bool;          (* succeeds? *)
  re_tcsetattr : bool;          (* disabling echo succeeds? *)
  re_fclose : bool;             (* closing succeeds? *)
  re_strdup : bool }.

(* readpass.c:41-55 resetsigs *)
Definition resetsigs : list act := map A_uncatch badsigs ++ map A_reissue badsigs.

(* readpass.c:133-163 the retry loop; Some (Some p): the line read; Some None: goto err3;
   None: out of fuel *)
Fixpoint readpass_retry (fuel : nat) (usingtty : bool) (prompt : bytes) (confirm : option bytes) (s : instream)
  : option (option bytes * instream * list act) :=
  match fuel with
  | O => None
  | S fuel' =>
      let pr1 := if usingtty then [A_prompt (prompt ++ str ": ")] else [] in
      match fgets MAXPASSLEN s with                                        (* 139 *)
      | (None, s1) =>
          Some (None, s1, pr1 ++ [A_read; A_warn (if ferror s1 then str "Cannot read password" else str "EOF reading password")])
      | (Some passbuf, s1) =>
          match confirm with
          | None => Some (Some passbuf, s1, pr1 ++ [A_read])
          | Some cprompt =>                                                 (* 148 *)
              let pr2 := if usingtty then [A_prompt (cprompt ++ str ": ")] else [] in
              match fgets MAXPASSLEN s1 with                                (* 151 *)
              | (None, s2) =>
                  Some (None, s2, pr1 ++ [A_read] ++ pr2
                        ++ [A_read; A_warn (if ferror s2 then str "Cannot read password" else str "EOF reading password")])
              | (Some confpassbuf, s2) =>
                  if list_eqb (cstr passbuf) (cstr confpassbuf)       (* 158 *)
                  then Some (Some passbuf, s2, pr1 ++ [A_read] ++ pr2 ++ [A_read])
                  else
                    match readpass_retry fuel' usingtty prompt confirm s2 with
                    | Some (r, s3, tr) =>
                        Some (r, s3, pr1 ++ [A_read] ++ pr2 ++ [A_read]
                              ++ [A_prompt (str "Passwords mismatch, please try again" ++ [newline])] ++ tr)
                    | None => None
                    end
              end
          end
      end
  end.

(** Result of readpass: the password (None: -1 is returned), standard input
    afterwards, and what was done. *)
Record rp_out := mk_rpo { ro_pass : option bytes; ro_stdin : instream; ro_acts : list act }.

(* readpass.c:103-219, after readfrom was chosen: [tty] says whether it is the opened /dev/tty *)
Definition readpass_from (E : rp_env) (tty : bool) (readfrom stdin : instream) (prompt : bytes) (confirm : option bytes)
  : res rp_out :=
  let start := A_clear :: map A_catch badsigs in                            (* 103-117 *)
  let usingtty := if tty then re_tty_isatty E else re_stdin_isatty E in     (* 120 *)
  let close := if tty then A_close :: (if re_fclose E then [] else [A_warn (str "fclose")]) else [] in
  let stdin_after s := if tty then stdin else s in
  if usingtty && negb (re_tcgetattr E)
  then Ok (mk_rpo None stdin (start ++ [A_warn (str "Cannot read terminal settings")] ++ close ++ resetsigs ++ [A_zero])) else
  if usingtty && negb (re_tcsetattr E)
  then Ok (mk_rpo None stdin (start ++ [A_warn (str "Cannot set terminal settings")] ++ close ++ resetsigs ++ [A_zero])) else
  let off := if usingtty then [A_echo_off] else [] in
  let back := if usingtty then [A_echo_back] else [] in
  match readpass_retry (in_size readfrom) usingtty prompt confirm readfrom with
  | None => UB
  | Some (None, s, tr) =>                                                   (* 201 err3 *)
      Ok (mk_rpo None (stdin_after s) (start ++ off ++ tr ++ back ++ close ++ resetsigs ++ [A_zero]))
  | Some (Some passbuf, s, tr) =>
      let p := before_crlf (cstr passbuf) in                                (* 166 *)
      let acts := start ++ off ++ tr ++ back ++ resetsigs ++ close in       (* 168-177 *)
      if re_strdup E then Ok (mk_rpo (Some p) (stdin_after s) (acts ++ [A_zero]))
      else Ok (mk_rpo None (stdin_after s) (acts ++ [A_warn (str "Cannot allocate memory"); A_zero]))
  end.
(* readpass.c:68-219 readpass *)
Definition readpass (E : rp_env) (stdin : instream) (prompt : bytes) (confirm : option bytes) (devtty : Z) : res rp_out :=
  match devtty with                                                          (* 81-101 *)
  | 0%Z => readpass_from E false stdin stdin prompt confirm
  | 1%Z => match re_tty E with
           | Some t => readpass_from E true t stdin prompt confirm
           | None => readpass_from E false stdin stdin prompt confirm
           end
  | 2%Z => match re_tty E with
           | Some t => readpass_from E true t stdin prompt confirm
           | None => Ok (mk_rpo None stdin [A_warn (str "fopen(/dev/tty)"); A_zero])
           end
  | _ => Ok (mk_rpo None stdin [A_warn (str "readpass does not support devtty"); A_zero])
  end.

(* readpass_file.c:20-79 readpass_file; [f] is what fopen(filename, "r") gives *)
Definition readpass_file (f : option instream) (fclose_ok strdup_ok : bool) (filename : bytes) : option bytes * list act :=
  match f with
  | None => (None, [A_warn (str "fopen(" ++ filename ++ str ")"); A_zero])
  | Some s =>
      let close2 := if fclose_ok then [A_close] else [A_close; A_warn (str "fclose")] in
      let '(line, s1) := fgets MAXPASSLEN s in
      match line, ferror s1 with
      | None, true => (None, [A_read; A_warn (str "fread(" ++ filename ++ str ")")] ++ close2 ++ [A_zero])
      | _, _ =>
          let passbuf := match line with Some x => x | None => [] end in
          match fst (fgetc s1) with
          | G_char _ =>
              (None, [A_read; A_warn (str "line too long, or more than 1 line in " ++ filename)] ++ close2 ++ [A_zero])
          | _ =>                                                             (* 44: EOF, also on error *)
              if fclose_ok then
                let p := before_crlf (cstr passbuf) in
                if strdup_ok then (Some p, [A_read; A_close; A_zero])
                else (None, [A_read; A_close; A_warn (str "Cannot allocate memory"); A_zero])
              else (None, [A_read; A_close; A_warn (str "fclose(" ++ filename ++ str ")"); A_zero])
          end
      end
  end.

(* passphrase_entry.h:5-14 *)
Inductive entry := PASSPHRASE_UNSET | PASSPHRASE_TTY_STDIN | PASSPHRASE_STDIN_ONCE | PASSPHRASE_TTY_ONCE | PASSPHRASE_ENV | PASSPHRASE_FILE.

(** strchr(s, c): the rest of the string from the first c on. *)
Fixpoint strchr (c : N) (s : bytes) : option bytes :=
  match s with [] => None | x :: t => if x =? c then Some s else strchr c t end.
(** strncmp(s, p, strlen(p)) == 0 *)
Definition starts_with (p s : bytes) : bool := list_eqb (firstn (List.length p) s) p.

(* passphrase_entry.c:12-58 passphrase_entry_parse *)
Definition passphrase_entry_parse (arg : bytes) : option (entry * bytes) :=
  match strchr 58 arg with
  | None => None
  | Some p =>
      let a := skipn 1 p in
      let others :=
        if starts_with (str "env:") arg then Some (PASSPHRASE_ENV, a)
        else if starts_with (str "file:") arg then Some (PASSPHRASE_FILE, a)
        else None in
      if starts_with (str "dev:") arg then
        if list_eqb a (str "tty-stdin") then Some (PASSPHRASE_TTY_STDIN, a)
        else if list_eqb a (str "stdin-once") then Some (PASSPHRASE_STDIN_ONCE, a)
        else if list_eqb a (str "tty-once") then Some (PASSPHRASE_TTY_ONCE, a)
        else others
      else others
  end.

(** Where passphrases come from. *)
Record pp_env := mk_ppe {
  pe_rp : rp_env;
  pe_getenv : bytes -> option bytes;
  pe_file : bytes -> option instream;     (* fopen(name, "r") of a passphrase file *)
  pe_strdup : bool }.
(* passphrase_entry.c:70-121 passphrase_entry_readpass *)
Definition passphrase_entry_readpass (E : pp_env) (stdin : instream) (m : entry) (arg prompt confirmprompt : bytes) (once : bool)
  : res rp_out :=
  match m with
  | PASSPHRASE_TTY_STDIN => readpass (pe_rp E) stdin prompt (if once then None else Some confirmprompt) 1
  | PASSPHRASE_STDIN_ONCE => readpass (pe_rp E) stdin prompt None 0
  | PASSPHRASE_TTY_ONCE => readpass (pe_rp E) stdin prompt None 2
  | PASSPHRASE_ENV =>
      match pe_getenv E arg with
      | None => Ok (mk_rpo None stdin [A_warn (str "Failed to read from ${" ++ arg ++ str "}")])
      | Some v => if pe_strdup E then Ok (mk_rpo (Some v) stdin [])
                  else Ok (mk_rpo None stdin [A_warn (str "Out of memory")])
      end
  | PASSPHRASE_FILE =>
      let '(p, a) := readpass_file (pe_file E arg) (re_fclose (pe_rp E)) (pe_strdup E) arg in
      Ok (mk_rpo p stdin a)
  | PASSPHRASE_UNSET => Ok (mk_rpo None stdin [A_warn (str "Programming error: passphrase_entry is not set")])
  end.
