(** Model of libcperciva/util/getopt.c (and the GETOPT macros of getopt.h).
    Strings are C strings without the terminating NUL; argv does not contain
    the NULL pointer that follows its last element. *)
From Verif Require Import Base.

(** s[i], reading at most the terminating NUL. *)
Definition chr (s : bytes) (i : nat) : res N := if Nat.leb i (length s) then Ok (nth i s 0) else UB.
(** argv[i], which must exist. *)
Definition argvi (argv : list bytes) (i : nat) : res bytes :=
  match nth_error argv i with Some a => Ok a | None => UB end.
(** a && b *)
Definition andm (a b : res bool) : res bool := x <- a ;; if (x : bool) then b else Ok false.
(* s[i] == c *)
Definition chr_is (s : bytes) (i : nat) (c : N) : res bool := x <- chr s i ;; Ok (x =? c).
(* s[i] != c *)
Definition chr_isnt (s : bytes) (i : nat) (c : N) : res bool := x <- chr s i ;; Ok (negb (x =? c)).

(** The slots of the sparse array opts (getopt.c:26-31): os and hasarg, or NULL. *)
Definition slots := list (option (bytes * bool)).
(* getopt.c:113-136 searchopt; None is opt_default.  olen is strlen(os); the
   strncmp up to olen says that the slot's name is a prefix of os. *)
Fixpoint searchopt_from (i : nat) (opts : slots) (os : bytes) : res (option nat) :=
  match opts with
  | [] => Ok None
  | None :: opts' => searchopt_from (S i) opts' os
  | Some (n, _) :: opts' =>
      if negb (list_eqb n (firstn (length n) os)) then searchopt_from (S i) opts' os
      else
        c <- chr os (length n) ;;
        if (c =? 0) || (c =? 61) then Ok (Some i) else searchopt_from (S i) opts' os
  end.
(* getopt.c:113-136 searchopt *)
Definition searchopt (opts : slots) (os : bytes) : res (option nat) := searchopt_from 0 opts os.

(** Scanner state: optind and packedopts (the rest of the string it points to). *)
Record gstate := mk_gs { g_optind : nat; g_packed : option bytes }.
(* getopt.c:85-108 reset: scanning starts at the first option *)
Definition gs0 : gstate := mk_gs 1 None.
(** opt_found (getopt.c:35): a slot, opt_missing or opt_default. *)
Inductive found := Found (i : nat) | Found_missing | Found_default.
(** WARN (getopt.c:55-61): printed if opt_missing == opt_default. *)
Inductive gwarn := W_unknown (os : bytes) | W_requires (os : bytes) | W_noarg (os : bytes).
(* What one call of getopt (getopt.c:138-257) leaves: the string returned, opt_found, optarg, and the warning *)
Record gret := mk_gret { r_ch : bytes; r_found : found; r_arg : option bytes; r_warn : option gwarn }.

Section Getopt.
  Context (opts : slots) (has_missing : bool) (argv : list bytes).
  (* getopt.c:55-61 WARN *)
  Definition WARN (w : gwarn) : option gwarn := if has_missing then None else Some w.
  (* getopt.c:138-259 getopt, after initialisation.  The string returned is None
     for NULL.  getopt.c:145 optarg = NULL *)
  Definition getopt (st : gstate) : res (gstate * option gret) :=
    let argc := length argv in
    if Nat.leb argc (g_optind st) then Ok (st, None) else           (* 156-157 *)
    let optind := g_optind st in
    (* 159-167: start of a packed group? *)
    packed <- match g_packed st with
              | Some p => Ok (Some p)
              | None =>
                  a <- argvi argv optind ;;
                  b <- andm (chr_is a 0 45) (andm (chr_isnt a 1 45) (chr_isnt a 1 0)) ;;
                  Ok (if (b : bool) then Some (skipn 1 a) else None)
              end ;;
    (* 169-185: fish one character out; 187-198: dash-dash *)
    ' (os, packed, optind) <-
      match packed with
      | Some p =>
          c <- chr p 0 ;;
          let os := [45; c] in
          let p := skipn 1 p in
          e <- chr_is p 0 0 ;;
          Ok (if (e : bool) then (Some os, None, S optind) else (Some os, Some p, optind))
      | None =>
          a <- argvi argv optind ;;
          b <- andm (chr_is a 0 45) (chr_is a 1 45) ;;
          if (b : bool) then
            ne <- chr_isnt a 2 0 ;;
            Ok ((if (ne : bool) then Some a else None), None, S optind)
          else Ok (None, None, optind)
      end ;;
    match os with
    | None => Ok (mk_gs optind packed, None)                        (* 200-202 *)
    | Some os =>
        f <- searchopt opts os ;;
        match f with
        | None => Ok (mk_gs optind packed, Some (mk_gret os Found_default None (WARN (W_unknown os))))   (* 207-211 *)
        | Some i =>
            s <- rd opts i 1 ;;
            match s with
            | [Some (name, hasarg)] =>
                sep <- chr os (length name) ;;
                if (hasarg : bool) then
                  (* 222-229 *)
                  let '(optarg, packed, optind) :=
                    match packed with Some p => (Some p, None, S optind) | None => (None, None, optind) end in
                  (* 231-236 *)
                  let optarg := if sep =? 61 then Some (skipn (length name + 1) os) else optarg in
                  (* 238-243 *)
                  ' (optarg, optind) <-
                    match optarg with
                    | Some a => Ok (Some a, optind)
                    | None => if Nat.ltb optind argc then a <- argvi argv optind ;; Ok (Some a, S optind) else Ok (None, optind)
                    end ;;
                  match optarg with
                  | Some a => Ok (mk_gs optind packed, Some (mk_gret name (Found i) (Some a) None))
                  | None => Ok (mk_gs optind packed, Some (mk_gret name Found_missing None (WARN (W_requires name))))   (* 245-250 *)
                  end
                else if sep =? 61 then Ok (mk_gs optind packed, Some (mk_gret name Found_default None (WARN (W_noarg name))))  (* 252-257 *)
                else Ok (mk_gs optind packed, Some (mk_gret name (Found i) None None))
            | _ => UB
            end
        end
    end.

  (** Where GETOPT_SWITCH (getopt.h:104-109) jumps. *)
  Inductive label := L_opt (name : bytes) | L_missing | L_default.
  (* What the program sees of one turn: the label reached, ch, optarg, and the warning printed (getopt.h:86-109) *)
  Record obs := mk_obs { o_label : label; o_ch : bytes; o_arg : option bytes; o_warn : option gwarn }.
  (* getopt.c:259-289 getopt_lookup, getopt.h:118-179 GETOPT_OPT, GETOPT_OPTARG
     (with its assert), GETOPT_MISSING_ARG and GETOPT_DEFAULT *)
  Definition dispatch (r : gret) : res obs :=
    match r_found r with
    | Found i =>
        s <- rd opts i 1 ;;
        match s with
        | [Some (name, hasarg)] =>
            _ <- assert_ (list_eqb (r_ch r) name) ;;
            _ <- (if (hasarg : bool) then assert_ (match r_arg r with Some _ => true | None => false end) else Ok tt) ;;
            Ok (mk_obs (L_opt name) (r_ch r) (r_arg r) (r_warn r))
        | _ => UB
        end
    | Found_missing => Ok (mk_obs (if has_missing then L_missing else L_default) (r_ch r) (r_arg r) (r_warn r))
    | Found_default => Ok (mk_obs L_default (r_ch r) (r_arg r) (r_warn r))
    end.
  (** while ((ch = GETOPT(argc, argv)) != NULL) GETOPT_SWITCH(ch) { ... }: the
      observations in order and the final optind. *)
  Fixpoint getopt_loop (fuel : nat) (st : gstate) : res (list obs * nat) :=
    match fuel with
    | O => UB
    | S f =>
        ' (st, r) <- getopt st ;;
        match r with
        | None => Ok ([], g_optind st)
        | Some r =>
            o <- dispatch r ;;
            ' (os, ind) <- getopt_loop f st ;;
            Ok (o :: os, ind)
        end
    end.
End Getopt.

(** ---- registration ---- *)
(* getopt.c:339-366 getopt_setrange (malloc succeeding) *)
Definition getopt_setrange (maxopts : nat) : slots := repeat None maxopts.
(* getopt.c:290-322 getopt_register_opt; DIE and assert are Abort *)
Definition getopt_register_opt (opts : slots) (os : bytes) (ln : nat) (hasarg : bool) : res slots :=
  old <- rd opts ln 1 ;;
  _ <- assert_ (match old with [None] => true | _ => false end) ;;
  c0 <- chr os 0 ;;
  if negb (c0 =? 45) then Abort else
  c1 <- chr os 1 ;;
  if c1 =? 0 then Abort else
  c2 <- chr os 2 ;;
  if ((c1 =? 45) && (c2 =? 0)) || (negb (c1 =? 45) && negb (c2 =? 0)) then Abort else
  f <- searchopt opts os ;;
  match f with
  | Some _ => Abort
  | None => wr opts ln [Some (os, hasarg)]
  end.
(** The initialisation loop of GETOPT_SWITCH: register the options in the order
    of their line numbers. *)
Fixpoint register_all (opts : slots) (l : list (nat * bytes * bool)) : res slots :=
  match l with
  | [] => Ok opts
  | (ln, os, hasarg) :: l' => opts <- getopt_register_opt opts os ln hasarg ;; register_all opts l'
  end.
