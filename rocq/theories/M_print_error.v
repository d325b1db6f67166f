(** Model of lib/scryptenc/scryptenc_print_error.c and of the parts of
    libcperciva/util/warnp.[ch] it uses (messages to standard error; the
    program never switches to syslog). *)
From Coq Require Import String.
From Verif Require Import Base SpecAscii M_machine.
Local Open Scope list_scope.

(** State of the warning facility: the program name (None: not set) and the
    text of errno (None: errno is 0). *)
Record warn_st := mk_ws { ws_name : option bytes; ws_errno : option bytes }.
(* warnp.c:72, 114: (name != NULL) ? name : "(unknown)" *)
Definition ws_prog (w : warn_st) : bytes := match ws_name w with Some n => n | None => str "(unknown)" end.
(* warnp.c:55-95 warn(fmt, ...) with the formatted text *)
Definition warn (w : warn_st) (text err : bytes) : bytes := ws_prog w ++ str ": " ++ text ++ str ": " ++ err ++ [newline].
(* warnp.c:97-136 warnx *)
Definition warnx (w : warn_st) (text : bytes) : bytes := ws_prog w ++ str ": " ++ text ++ [newline].
(* warnp.h:60-67 warnp: the line written and the new state (errno cleared) *)
Definition warnp (w : warn_st) (text : bytes) : bytes * warn_st :=
  match ws_errno w with
  | Some err => (warn w text err, mk_ws (ws_name w) None)
  | None => (warnx w text, w)
  end.
(* warnp.h:74-78 warn0 *)
Definition warn0 (w : warn_st) (text : bytes) : bytes * warn_st := (warnx w text, mk_ws (ws_name w) None).
(* warnp.c:31-53 warnp_setprogname: the last segment of the program name *)
Fixpoint last_segment (p progname : bytes) : bytes :=
  match progname with
  | [] => p
  | c :: t => last_segment (if c =? 47 then t else p) t
  end.
(* warnp.c:28-53 warnp_setprogname *)
Definition warnp_setprogname (progname : bytes) (w : warn_st) : warn_st :=
  mk_ws (Some (last_segment progname progname)) (ws_errno w).

(* scryptenc.h:76-91 *)
Definition rcode_num (rc : rcode) : Z :=
  match rc with
  | SCRYPT_OK => 0 | SCRYPT_ELIMIT => 1 | SCRYPT_ECLOCK => 2 | SCRYPT_EKEY => 3 | SCRYPT_ESALT => 4
  | SCRYPT_EOPENSSL => 5 | SCRYPT_ENOMEM => 6 | SCRYPT_EINVAL => 7 | SCRYPT_EVERSION => 8
  | SCRYPT_ETOOBIG => 9 | SCRYPT_ETOOSLOW => 10 | SCRYPT_EPASS => 11 | SCRYPT_EWRFILE => 12
  | SCRYPT_ERDFILE => 13 | SCRYPT_EPARAM => 14 | SCRYPT_EBIGSLOW => 15
  end.
(* scryptenc_print_error.c:64, 68: (name != NULL) ? name : default *)
Definition or_name (f : option bytes) (dflt : bytes) : bytes := match f with Some n => n | None => dflt end.
(* scryptenc_print_error.c:15-77 scryptenc_print_error *)
Definition scryptenc_print_error (w : warn_st) (rc : Z) (infilename outfilename : option bytes) : res (bytes * warn_st) :=
  if (rc =? 0)%Z then Abort else                      (* assert(rc != SCRYPT_OK) *)
  Ok (match rc with
      | 1%Z => warnp w (str "Error determining amount of available memory")
      | 2%Z => warnp w (str "Error reading clocks")
      | 3%Z => warnp w (str "Error computing derived key")
      | 4%Z => warnp w (str "Error reading salt")
      | 5%Z => warnp w (str "OpenSSL error")
      | 6%Z => warnp w (str "Error allocating memory")
      | 7%Z => warn0 w (str "Input is not valid scrypt-encrypted block")
      | 8%Z => warn0 w (str "Unrecognized scrypt format version")
      | 9%Z => warn0 w (str "Decrypting file would require too much memory")
      | 10%Z => warn0 w (str "Decrypting file would take too much CPU time")
      | 15%Z => warn0 w (str "Decrypting file would require too much memory" ++ str " and CPU time")
      | 11%Z => warn0 w (str "Passphrase is incorrect")
      | 12%Z => warnp w (str "Error writing file: " ++ or_name outfilename (str "standard output"))
      | 13%Z => warnp w (str "Error reading file: " ++ or_name infilename (str "standard input"))
      | 14%Z => warn0 w (str "Error in explicit parameters")
      | _ => warn0 w (str "Programmer error: unrecognized scrypt error")
      end).
