(** Model of the label machinery of libcperciva/util/getopt.h (GETOPT_SWITCH,
    GETOPT_OPT, GETOPT_OPTARG, GETOPT_MISSING_ARG, GETOPT_DEFAULT) and of the
    static state of getopt.c behind it.  Every label of a switch is identified
    by the source line it is on (__LINE__), and the option table is built on
    the first pass through the switch by jumping to every line in turn.
    Simplifications: the message of a DIE before abort() is not kept; malloc
    succeeds or the program aborts (getopt.c:353-355), and the abort is not
    modelled; a label is an entry point, what the statements behind it do is
    the caller's business. *)
From Verif Require Import Base M_getopt.

(** The labels of a switch. *)
Inductive kind := K_opt (os : bytes) | K_optarg (os : bytes) | K_missing.
(** A switch as written: the line of GETOPT_SWITCH, the labels with their
    lines, the line of GETOPT_DEFAULT. *)
Record switch := mk_sw { sw_line : nat; sw_cases : list (nat * kind); sw_default : nat }.

(* getopt.c:14-17, 21, 27-36: the globals.  s_opts is the array opts (NULL, or
   the nopts slots allocated); s_found is opt_found, None for (size_t)(-1);
   s_gs is optind and packedopts.  popt, cmdname and atexit_registered are not
   kept: popt is part of the string returned, the other two only matter for
   messages and for leak checkers. *)
Record gstatic := mk_gst {
  s_optreset : bool; s_opterr : bool; s_init : bool; s_opts : option slots;
  s_missing : nat; s_default : nat; s_found : option nat; s_optarg : option bytes; s_gs : gstate }.
(* getopt.c:14-21, 31: the state a program starts with *)
Definition gst0 : gstatic := mk_gst true true false None 0 0 None None (mk_gs 1 None).
(* opts[] (getopt.c:27-31); NULL before registration *)
Definition slots_of (st : gstatic) : slots := match s_opts st with Some sl => sl | None => [] end.

(* getopt.c:73-111 reset *)
Definition reset (st : gstatic) : gstatic :=
  mk_gst false (s_opterr st) false None (s_missing st) (s_default st) None (s_optarg st) gs0.
(** What getopt returns: NULL, GETOPT_DUMMY or an option string (with the
    message it printed). *)
Inductive gch := G_null | G_dummy | G_opt (ch : bytes) (w : option gwarn).
(** opt_found as a number: a slot, opt_missing or opt_default. *)
Definition number (st : gstatic) (f : found) : nat :=
  match f with Found i => i | Found_missing => s_missing st | Found_default => s_default st end.
(* getopt.c:138-257 getopt; the part after initialisation is M_getopt.getopt,
   whose messages are off if opterr == 0 or opt_missing != opt_default *)
Definition getopt_call (argv : list bytes) (st : gstatic) : res (gstatic * gch) :=
  let st := if s_optreset st then reset st else st in
  let set_arg st a := mk_gst (s_optreset st) (s_opterr st) (s_init st) (s_opts st) (s_missing st) (s_default st) (s_found st) a (s_gs st) in
  let st := set_arg st None in                                       (* 145 *)
  if negb (s_init st) then Ok (st, G_dummy) else                     (* 151-153 *)
  let quiet := negb (s_opterr st) || negb (Nat.eqb (s_missing st) (s_default st)) in
  ' (g, r) <- getopt (slots_of st) quiet argv (s_gs st) ;;
  let upd st f a := mk_gst (s_optreset st) (s_opterr st) (s_init st) (s_opts st) (s_missing st) (s_default st) f a g in
  match r with
  | None => Ok (upd st (s_found st) None, G_null)
  | Some r => Ok (upd st (Some (number st (r_found r))) (r_arg r), G_opt (r_ch r) (r_warn r))
  end.

(* getopt.c:259-289 getopt_lookup *)
Definition getopt_lookup (st : gstatic) (os : gch) : res nat :=
  if s_optreset st then Abort else
  _ <- assert_ (s_init st) ;;
  match os, s_found st with
  | G_opt os _, Some f =>
      ok <- (if Nat.eqb f (s_missing st) || Nat.eqb f (s_default st) then Ok true
             else if Nat.ltb f (length (slots_of st)) then
               s <- rd (slots_of st) f 1 ;;
               match s with [Some (name, _)] => Ok (list_eqb os name) | _ => UB end
             else Ok false) ;;
      _ <- assert_ ok ;;
      Ok f
  | _, _ => Abort
  end.
(* getopt.c:324-337 getopt_register_missing *)
Definition getopt_register_missing (st : gstatic) (ln : nat) : res gstatic :=
  if s_optreset st then Abort else
  _ <- assert_ (negb (s_init st)) ;;
  Ok (mk_gst (s_optreset st) (s_opterr st) (s_init st) (s_opts st) ln (s_default st) (s_found st) (s_optarg st) (s_gs st)).
(* getopt.c:291-322 getopt_register_opt; from the third assert on it is
   M_getopt.getopt_register_opt *)
Definition register_opt (st : gstatic) (os : bytes) (ln : nat) (hasarg : bool) : res gstatic :=
  if s_optreset st then Abort else
  _ <- assert_ (negb (s_init st)) ;;
  match s_opts st with
  | None => Abort
  | Some sl =>
      sl <- getopt_register_opt sl os ln hasarg ;;
      Ok (mk_gst (s_optreset st) (s_opterr st) (s_init st) (Some sl) (s_missing st) (s_default st) (s_found st) (s_optarg st) (s_gs st))
  end.
(* getopt.c:339-366 getopt_setrange *)
Definition setrange (st : gstatic) (maxopts : nat) : res gstatic :=
  if s_optreset st then Abort else
  _ <- assert_ (negb (s_init st)) ;;
  Ok (mk_gst (s_optreset st) (s_opterr st) (s_init st) (Some (M_getopt.getopt_setrange maxopts)) (maxopts + 1) (maxopts + 1) (s_found st) (s_optarg st) (s_gs st)).

(** What the body of the switch sees: the label (its line), ch, optarg, and
    the message getopt printed. *)
Record visit := mk_visit { vis_line : nat; vis_ch : bytes; vis_arg : option bytes; vis_warn : option gwarn }.

Section Switch.
  Context (sw : switch).
  (** The label on a line, if there is one: what "case ln:" selects. *)
  Definition case_at (v : nat) : option kind :=
    match find (fun c => Nat.eqb (fst c) v) (sw_cases sw) with Some (_, k) => Some k | None => None end.
  (* getopt.h:96-102 GETOPT_SWITCH while !getopt_initialized: jump to
     getopt_ln++; getopt.h:112-118, 131-139, 152-158: a label registers itself
     and jumps back (DO_LONGJMP); getopt.h:173-186: "case ln" of GETOPT_DEFAULT
     ends the initialisation and leaves the switch, "default:" sets the range
     once and jumps back.  [ln] is getopt_ln, [dm] is getopt_default_missing. *)
  Fixpoint init_loop (fuel : nat) (ln : nat) (dm : bool) (st : gstatic) : res gstatic :=
    match fuel with
    | O => UB
    | S f =>
        match case_at ln with
        | Some (K_opt os) => st <- register_opt st os (ln - sw_line sw) false ;; init_loop f (S ln) dm st
        | Some (K_optarg os) => st <- register_opt st os (ln - sw_line sw) true ;; init_loop f (S ln) dm st
        | Some K_missing => st <- getopt_register_missing st (ln - sw_line sw) ;; init_loop f (S ln) dm st
        | None =>
            if Nat.eqb ln (sw_default sw) then
              Ok (mk_gst (s_optreset st) (s_opterr st) true (s_opts st) (s_missing st) (s_default st) (s_found st) (s_optarg st) (s_gs st))
            else if dm then init_loop f (S ln) dm st
            else st <- setrange st (sw_default sw - sw_line sw) ;; init_loop f (S ln) true st
        end
    end.
  (* getopt.h:96-102 GETOPT_SWITCH once getopt_initialized: jump to
     getopt_lookup(ch) + getopt_ln_min; every label then skips to the code
     behind it (GETOPT_OPTARG with its assert, getopt.h:133-136); "case ln" of
     GETOPT_DEFAULT is reached only for a lookup result of nopts, and leaves
     the switch (None). *)
  Definition jump (st : gstatic) (ch : gch) : res (option nat) :=
    n <- getopt_lookup st ch ;;
    let v := (n + sw_line sw)%nat in
    match case_at v with
    | Some (K_optarg _) => _ <- assert_ (match s_optarg st with Some _ => true | None => false end) ;; Ok (Some v)
    | Some _ => Ok (Some v)
    | None => if Nat.eqb v (sw_default sw) then Ok None else Ok (Some (sw_default sw))
    end.
  (** while ((ch = GETOPT(argc, argv)) != NULL) { GETOPT_SWITCH(ch) { ... } }:
      the labels reached, in order, and the state at the end. *)
  Fixpoint switch_loop (fuel : nat) (argv : list bytes) (st : gstatic) : res (list visit * gstatic) :=
    match fuel with
    | O => UB
    | S f =>
        ' (st, ch) <- getopt_call argv st ;;
        match ch with
        | G_null => Ok ([], st)
        | _ =>
            if s_init st then
              l <- jump st ch ;;
              ' (vs, st') <- switch_loop f argv st ;;
              Ok (match l, ch with
                  | Some l, G_opt os w => mk_visit l os (s_optarg st) w :: vs
                  | _, _ => vs
                  end, st')
            else
              st <- init_loop (2 + (sw_default sw - sw_line sw)) (sw_line sw - 1) false st ;;
              switch_loop f argv st
        end
    end.
End Switch.
