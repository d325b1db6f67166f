(** Model of main.c.

    Strings are C strings without the NUL.  Messages are recorded by their text,
    without program name and errno.  The standard streams and files are those of
    M_stdio; a closed file's contents are complete only if the close
    succeeded.  The program is assumed to be called with argc = length argv. *)
From Coq Require Import String.
From Flocq Require Import IEEE754.BinarySingleNaN.
From Verif Require Import Base SpecAscii M_machine M_double M_smix M_stdio M_memlimit M_cpuperf M_strto M_parsenum M_humansize M_params M_scryptenc
  M_getopt M_readpass M_print_error M_memzero.
Local Open Scope list_scope.

(** The world the program runs in. *)
Record world := mk_world {
  w_M : machine; w_cfg : clk_cfg; w_lb : lib; w_heap : kheap; w_env : call_env;
  w_pp : pp_env; w_stdin : instream; w_stdout : outstream;
  w_open_in : bytes -> option instream;      (* fopen(name, "rb") *)
  w_open_out : bytes -> option outstream;    (* fopen(name, "wb") *)
  w_close_in : bool; w_close_out : bool;     (* fclose succeeds? *)
  w_strtod : strtod_fn;
  w_maxmem64 : N;                            (* indeterminate value of the variable maxmem64 *)
  w_al1 : bool; w_al2 : bool }.              (* mallocs when parameters are displayed *)

(** What the program does, in order. *)
Inductive pevent :=
| E_open_in (name : bytes) (ok : bool)
| E_open_out (name : bytes) (ok : bool)
| E_pass (acts : list act) (ok : bool)       (* passphrase_entry_readpass *)
| E_pass_free (contents : bytes)             (* free(passwd), when the object contained this *)
| E_prep (rc : rcode)                        (* scryptdec_file_prep *)
| E_run (rc : rcode)                         (* scryptenc_file, scryptdec_file_copy, scryptdec_file_printparams *)
| E_msgs (ms : list msg)                     (* messages of the library *)
| E_close_in (ok : bool) | E_close_out (ok : bool)
| E_warn (t : bytes)
| E_error (rc : rcode) (infile outfile : option bytes)   (* scryptenc_print_error *)
| E_usage
| E_version.
(** How a run ends: exit status, events, standard output, the output file, and the heap. *)
Record presult := mk_pr { pr_status : Z; pr_events : list pevent; pr_stdout : outstream;
  pr_file : option (bytes * outstream); pr_heap : kheap }.

(** assert(rc != SCRYPT_OK) of scryptenc_print_error.c:18-19; its text is modelled in M_print_error *)
Definition print_error (rc : rcode) (i o : option bytes) : res (list pevent) :=
  _ <- scryptenc_print_error (mk_ws None None) (rcode_num rc) i o ;; Ok [E_error rc i o].

Section Main.
  Context (W : world).
  (* main.c:85-86, 92-93, 181-184, 200-201: warnp("fclose") *)
  Definition warn_close (ok : bool) : list pevent := if ok then [] else [E_warn (str "fclose")].
  (* main.c:85-86, 92-93, 181-182, 200-201: if ((infile != stdin) && fclose(infile)) *)
  Definition close_in (infilename : option bytes) : list pevent :=
    match infilename with None => [] | Some _ => E_close_in (w_close_in W) :: warn_close (w_close_in W) end.
  (* main.c:183-184: if ((outfile != stdout) && fclose(outfile)) *)
  Definition close_out (outfilename : option bytes) : list pevent :=
    match outfilename with None => [] | Some _ => E_close_out (w_close_out W) :: warn_close (w_close_out W) end.
  (* main.c:177-178, 199-200: insecure_memzero(passwd, strlen(passwd)); free(passwd); the
     object is that returned by strdup (readpass.c, readpass_file.c,
     passphrase_entry.c), i.e. the string and its terminator *)
  Definition release_pass (passwd : bytes) : res pevent :=
    buf <- insecure_memzero (passwd ++ [0]) (List.length passwd) ;; Ok (E_pass_free buf).
  (** The result of a function of main.c: whether it succeeded, and the rest. *)
  Definition fail (evs : list pevent) (h : kheap) : presult := mk_pr 1 evs (w_stdout W) None h.

  (* main.c:62-97 scrypt_mode_info *)
  Definition scrypt_mode_info (infilename : option bytes) : res presult :=
    match (match infilename with None => Some (w_stdin W) | Some n => w_open_in W n end) with
    | None => Ok (fail [E_open_in (or_name infilename []) false; E_warn (str "Cannot open input file: " ++ or_name infilename [])] (w_heap W))
    | Some infile =>
        let o := match infilename with None => [] | Some n => [E_open_in n true] end in
        ' (rc, ms, _) <- scryptdec_file_printparams (w_al1 W) (w_al2 W) infile ;;
        if negb (is_ok rc) then
          pe <- print_error rc infilename None ;;
          Ok (fail (o ++ [E_msgs ms; E_run rc] ++ pe ++ close_in infilename) (w_heap W))
        else Ok (mk_pr 0 (o ++ [E_msgs ms; E_run rc] ++ close_in infilename) (w_stdout W) None (w_heap W))
    end.

  (* main.c:157-205: the part after the header has been processed; [C] is the cookie *)
  Definition enc_dec_run (dec : bool) (P : xparams) (lb : lib) (h : kheap) (C : option cookie) (passwd : bytes) (infile : instream)
    (verbose force : bool) (infilename outfilename : option bytes) : res presult :=
    match (match outfilename with None => Some (w_stdout W) | Some n => w_open_out W n end) with
    | None =>                                                              (* err2 *)
        h <- scryptdec_file_cookie_free C h ;;
        wipe <- release_pass passwd ;;
        Ok (fail ([E_open_out (or_name outfilename []) false; E_warn (str "Cannot open output file: " ++ or_name outfilename [])]
                  ++ wipe :: close_in infilename) h)
    | Some outfile =>
        let o := match outfilename with None => [] | Some n => [E_open_out n true] end in
        ' (rc, ms, fo, h) <-
          (if dec then
             ' (rc, _, fo, h) <- scryptdec_file_copy (w_M W) h (w_env W) C infile outfile ;; Ok (rc, [], fo, h)
           else
             oc <- scryptenc_file (w_M W) (w_cfg W) lb h (w_env W) infile outfile passwd P verbose force ;;
             Ok (oc_rc oc, oc_msgs oc, snd (oc_val oc), oc_heap oc)) ;;
        (* 172-193 *)
        h <- scryptdec_file_cookie_free C h ;;
        wipe <- release_pass passwd ;;
        pe <- (if is_ok rc then Ok [] else print_error rc infilename outfilename) ;;
        let evs := o ++ [E_msgs ms; E_run rc] ++ wipe :: close_in infilename ++ close_out outfilename ++ pe in
        let st := if is_ok rc then 0%Z else 1%Z in
        match outfilename with
        | None => Ok (mk_pr st evs fo None h)
        | Some n => Ok (mk_pr st evs (w_stdout W) (Some (n, fo)) h)
        end
    end.
  (* What happened before, put before the events of a run; not code *)
  Definition add_events (evs : list pevent) (r : presult) : presult :=
    mk_pr (pr_status r) (evs ++ pr_events r) (pr_stdout r) (pr_file r) (pr_heap r).
  (* main.c:110-205 scrypt_mode_enc_dec *)
  Definition scrypt_mode_enc_dec (P : xparams) (m : entry) (marg : bytes) (dec verbose force : bool)
    (infilename outfilename : option bytes) : res presult :=
    match (match infilename with None => Some (w_stdin W) | Some n => w_open_in W n end) with
    | None => Ok (fail [E_open_in (or_name infilename []) false; E_warn (str "Cannot open input file: " ++ or_name infilename [])] (w_heap W))
    | Some infile =>
        let o := match infilename with None => [] | Some n => [E_open_in n true] end in
        rp <- passphrase_entry_readpass (w_pp W) (w_stdin W) m marg (str "Please enter passphrase") (str "Please confirm passphrase") dec ;;
        match ro_pass rp with
        | None => Ok (fail (o ++ [E_pass (ro_acts rp) false; E_warn (str "passphrase_entry_readpass")] ++ close_in infilename) (w_heap W))
        | Some passwd =>
            (* if the input is standard input, what was read as passphrase is gone *)
            let infile := match infilename with None => ro_stdin rp | Some _ => infile end in
            let o := o ++ [E_pass (ro_acts rp) true] in
            if dec then
              oc <- scryptdec_file_prep (w_M W) (w_cfg W) (w_lb W) (w_heap W) (w_env W) infile passwd P verbose force None ;;
              let o := o ++ [E_msgs (oc_msgs oc); E_prep (oc_rc oc)] in
              if negb (is_ok (oc_rc oc)) then                             (* goto cleanup *)
                h <- scryptdec_file_cookie_free (fst (oc_val oc)) (oc_heap oc) ;;
                wipe <- release_pass passwd ;;
                pe <- print_error (oc_rc oc) infilename outfilename ;;
                Ok (fail (o ++ wipe :: close_in infilename ++ pe) h)
              else
                r <- enc_dec_run true P (oc_lib oc) (oc_heap oc) (fst (oc_val oc)) passwd (snd (oc_val oc)) verbose force infilename outfilename ;;
                Ok (add_events o r)
            else
              r <- enc_dec_run false P (w_lb W) (w_heap W) None passwd infile verbose force infilename outfilename ;;
              Ok (add_events o r)
        end
    end.

  (** The variables set by the options. *)
  Record ovars := mk_ov { v_force : bool; v_verbose : bool; v_entry : entry; v_arg : bytes; v_P : xparams }.
  (** An option is processed: new values, or exit(1) after these events. *)
  Definition oresult : Type := ovars + list pevent.
  (* An assignment to a field of params (main.c:260-326) *)
  Definition set_P (v : ovars) (P : xparams) : ovars := mk_ov (v_force v) (v_verbose v) (v_entry v) (v_arg v) P.
  (* main.c:208-218 GETOPT_PARSENUM_WITHIN_UNSIGNED on an int and on a uint32_t *)
  Definition bad_number (ch optarg : bytes) (err : N) : oresult :=
    inr [E_warn (if err =? ERANGE then ch ++ str " must be between" else str "Invalid option: " ++ ch ++ str " " ++ optarg)].
  (* main.c:207-218 for --logN (an int) *)
  Definition opt_int (ch optarg : bytes) (min max : Z) (k : Z -> ovars) : oresult :=
    let '(x, err) := PARSENUM_signed 32 optarg min max 0 in if err =? 0 then inl (k x) else bad_number ch optarg err.
  (* main.c:207-218 for -p and -r (uint32_t) *)
  Definition opt_u32 (ch optarg : bytes) (min max : Z) (k : N -> ovars) : oresult :=
    let '(x, err) := PARSENUM_unsigned 32 optarg min max 0 in if err =? 0 then inl (k x) else bad_number ch optarg err.
  (* main.c:279, 303 PARSENUM on a double *)
  Definition opt_double (ch optarg : bytes) (max : double) (k : double -> ovars) : oresult :=
    let '(x, err) := PARSENUM_float (w_strtod W) optarg d0 max in
    if err =? 0 then inl (k x) else inr [E_warn (str "Invalid option: " ++ ch ++ str " " ++ optarg)].
  (* main.c:288, 312: passphrase_entry == PASSPHRASE_UNSET, negated there *)
  Definition is_unset (m : entry) : bool := match m with PASSPHRASE_UNSET => true | _ => false end.
  (* main.c:289-291, 313-315 *)
  Definition only_one : oresult := inr [E_warn (str "You can only enter one --passphrase or -P argument")].
  (* main.c:260-326 the body of the option loop.  The assertion of GETOPT_OPTARG
     is part of dispatch, so the argument exists. *)
  Definition do_option (v : ovars) (o : obs) : oresult :=
    let P := v_P v in let L := x_lim P in
    let ch := o_ch o in
    let optarg := match o_arg o with Some a => a | None => [] end in
    match o_label o with
    | L_missing => inr [E_warn (str "Missing argument to " ++ ch); E_usage]
    | L_default => inr [E_warn (str "illegal option -- " ++ ch); E_usage]
    | L_opt n =>
        if list_eqb n (str "-f") then inl (mk_ov true (v_verbose v) (v_entry v) (v_arg v) P)
        else if list_eqb n (str "--logN") then opt_int ch optarg 10 40 (fun x => set_P v (mk_xp L x (x_r P) (x_p P)))
        else if list_eqb n (str "-M") then
          match humansize_parse (w_maxmem64 W) optarg with
          | None => inr [E_warn (str "Could not parse the parameter to -M.")]
          | Some x => if SIZE_MAX (m_szb (w_M W)) <? x then inr [E_warn (str "The parameter to -M is too large.")]
                      else inl (set_P v (mk_xp (mk_limits x (l_maxmemfrac L) (l_maxtime L)) (x_logN P) (x_r P) (x_p P)))
          end
        else if list_eqb n (str "-m") then
          opt_double ch optarg d0_5 (fun x => set_P v (mk_xp (mk_limits (l_maxmem L) x (l_maxtime L)) (x_logN P) (x_r P) (x_p P)))
        else if list_eqb n (str "-p") then opt_u32 ch optarg 1 2048 (fun x => set_P v (mk_xp L (x_logN P) (x_r P) x))
        else if list_eqb n (str "--passphrase") then
          if negb (is_unset (v_entry v)) then only_one
          else match passphrase_entry_parse optarg with
               | None => inr [E_warn (str "Invalid option: --passphrase " ++ optarg)]
               | Some (m, a) => inl (mk_ov (v_force v) (v_verbose v) m a P)
               end
        else if list_eqb n (str "-r") then opt_u32 ch optarg 1 32 (fun x => set_P v (mk_xp L (x_logN P) x (x_p P)))
        else if list_eqb n (str "-t") then
          opt_double ch optarg dinf (fun x => set_P v (mk_xp (mk_limits (l_maxmem L) (l_maxmemfrac L) x) (x_logN P) (x_r P) (x_p P)))
        else if list_eqb n (str "-v") then inl (mk_ov (v_force v) true (v_entry v) (v_arg v) P)
        else                                                               (* "-P" *)
          if negb (is_unset (v_entry v)) then only_one
          else inl (mk_ov (v_force v) (v_verbose v) PASSPHRASE_STDIN_ONCE [] P)
    end.
  (* main.c:261-325: the options, at their line numbers relative to GETOPT_SWITCH; GETOPT_DEFAULT is at 323 *)
  Definition option_list : list (nat * bytes * bool) :=
    [(1%nat, str "-f", false); (4%nat, str "--logN", true); (7%nat, str "-M", true); (18%nat, str "-m", true); (24%nat, str "-p", true);
     (27%nat, str "--passphrase", true); (39%nat, str "-r", true); (42%nat, str "-t", true); (48%nat, str "-v", false); (51%nat, str "-P", false)].
  (* main.c:259-327: the options as registered (line numbers relative to GETOPT_SWITCH) *)
  Definition options : res slots := register_all (getopt_setrange 63) option_list.
  (* main.c:259-327 *)
  Fixpoint option_loop (opts : slots) (argv : list bytes) (fuel : nat) (st : gstate) (v : ovars) : res (ovars * nat + list pevent) :=
    match fuel with
    | O => UB
    | S f =>
        ' (st, r) <- getopt opts true argv st ;;
        match r with
        | None => Ok (inl (v, g_optind st))
        | Some r =>
            o <- dispatch opts true r ;;
            match do_option v o with
            | inr evs => Ok (inr evs)
            | inl v => option_loop opts argv f st v
            end
        end
    end.
  (* main.c:331-400 *)
  Definition after_options (dec info : bool) (v : ovars) (args : list bytes) : res presult :=
    let P := v_P v in
    let bad t := Ok (fail [E_warn t] (w_heap W)) in
    match args with
    | [] => Ok (fail [E_usage] (w_heap W))
    | _ :: _ :: _ :: _ => Ok (fail [E_usage] (w_heap W))
    | a0 :: rest =>
        if negb (x_logN P =? 0)%Z && ((x_r P =? 0) || (x_p P =? 0)) then bad (str "If --logN is set, -r and -p must also be set") else
        if negb (x_r P =? 0) && ((x_logN P =? 0)%Z || (x_p P =? 0)) then bad (str "If -r is set, --logN and -p must also be set") else
        if negb (x_p P =? 0) && ((x_logN P =? 0)%Z || (x_r P =? 0)) then bad (str "If -p is set, --logN and -r must also be set") else
        if deq (l_maxmemfrac (x_lim P)) d0 then bad (str "-m must be greater than 0") else
        let infilename := if list_eqb a0 (str "-") then None else Some a0 in
        let outfilename := match rest with [] => None | a1 :: _ => Some a1 end in
        let '(m, marg) := if is_unset (v_entry v) then (PASSPHRASE_TTY_STDIN, []) else (v_entry v, v_arg v) in
        if (match m with PASSPHRASE_STDIN_ONCE => true | _ => false end) && (match infilename with None => true | Some _ => false end)
        then bad (str "Cannot read both passphrase and input file from standard input") else
        if (info : bool) then scrypt_mode_info infilename
        else scrypt_mode_enc_dec P m marg dec (v_verbose v) (v_force v) infilename outfilename
    end.
  (* main.c:227, 240-243 *)
  Definition start (enc : bool) : ovars :=
    mk_ov false false PASSPHRASE_UNSET [] (mk_xp (if enc then mk_limits 0 d0_125 (of_N 5) else mk_limits 0 d0_5 (of_N 300)) 0 0 0).
  (* main.c:220-400 main *)
  Definition main (argv : list bytes) : res presult :=
    let go (dec info : bool) (args : list bytes) :=
      opts <- options ;;
      r <- option_loop opts args (S (List.length (concat args) + List.length args)) gs0 (start (negb dec && negb info)) ;;
      match r with
      | inr evs => Ok (fail evs (w_heap W))
      | inl (v, optind) => after_options dec info v (skipn optind args)
      end in
    match argv with
    | _ :: mode :: rest =>
        if list_eqb mode (str "enc") then go false false (mode :: rest)
        else if list_eqb mode (str "dec") then go true false (mode :: rest)
        else if list_eqb mode (str "info") then go false true (mode :: rest)
        else if list_eqb mode (str "--version") then Ok (mk_pr 0 [E_version] (w_stdout W) None (w_heap W))
        else Ok (fail [E_warn (str "First argument must be 'enc', 'dec', or 'info'."); E_usage] (w_heap W))
    | _ => Ok (fail [E_usage] (w_heap W))
    end.
End Main.
