(** What the documentation of readpass.h and passphrase_entry.h says about
    passphrases, and signals and terminals as a program sees them. *)
From Coq Require Import String.
From Verif Require Import Base SpecAscii M_stdio M_readpass.
Local Open Scope list_scope.

(** The lines of some text, each with its line feed (the last one may lack it). *)
Fixpoint lines (d : bytes) : list bytes :=
  match d with
  | [] => []
  | c :: t =>
      if c =? newline then [c] :: lines t
      else match lines t with [] => [[c]] | l :: ls => (c :: l) :: ls end
  end.
(** [p] is the text of the line [l] without its end: the part before the first
    CR or LF. *)
Definition line_text (l p : bytes) : Prop :=
  ~ In 13 p /\ ~ In newline p /\ exists r, l = p ++ r /\ (r = [] \/ hd 0 r = 13 \/ hd 0 r = newline).
(** The first of the pairs of successive lines (1,2), (3,4), ... with two equal lines. *)
Inductive first_match : list bytes -> bytes -> Prop :=
| fm_here l ls : first_match (l :: l :: ls) l
| fm_later l1 l2 ls l : l1 <> l2 -> first_match ls l -> first_match (l1 :: l2 :: ls) l.
(** Everything a stream will ever deliver, also after errors and end-of-file conditions. *)
Definition all_data (s : instream) : bytes := concat (map fst (i_pieces s)).

(** ** Signals and the terminal *)
Inductive term := Term_as_found | Term_noecho.
(** For each signal: is it caught by readpass's handler (otherwise its
    disposition is the one readpass found)?  Has the handler seen it?  Plus the
    settings of the terminal. *)
Record mach := mk_mach { m_caught : signal -> bool; m_got : signal -> bool; m_term : term }.
(** A signal arrives; a signal takes effect according to its original
    disposition (which may stop or kill the program), with the terminal in this state. *)
Inductive sev := Arrived (s : signal) | Delivered (s : signal) (t : term).
Definition signal_eq_dec (a b : signal) : {a = b} + {a <> b}.
Proof. repeat decide equality. Defined.
Definition set_sig (f : signal -> bool) (s : signal) (v : bool) : signal -> bool :=
  fun x => if signal_eq_dec x s then v else f x.
Definition take_effect (s : signal) (m : mach) : mach * list sev :=
  if m_caught m s then (mk_mach (m_caught m) (set_sig (m_got m) s true) (m_term m), [])
  else (m, [Delivered s (m_term m)]).
Definition arrive (s : signal) (m : mach) : mach * list sev :=
  let '(m', e) := take_effect s m in (m', Arrived s :: e).
(** The effect of one action of readpass; [restore_ok] says whether tcsetattr
    can restore the terminal. *)
Definition act_step (restore_ok : bool) (a : act) (m : mach) : mach * list sev :=
  match a with
  | A_clear => (mk_mach (m_caught m) (fun _ => false) (m_term m), [])
  | A_catch s => (mk_mach (set_sig (m_caught m) s true) (m_got m) (m_term m), [])
  | A_uncatch s => (mk_mach (set_sig (m_caught m) s false) (m_got m) (m_term m), [])
  | A_reissue s => if m_got m s then take_effect s m else (m, [])
  | A_echo_off => (mk_mach (m_caught m) (m_got m) Term_noecho, [])
  | A_echo_back => (if restore_ok then mk_mach (m_caught m) (m_got m) Term_as_found else m, [])
  | _ => (m, [])
  end.
Fixpoint arrivals (ss : list signal) (m : mach) (evs : list sev) : mach * list sev :=
  match ss with
  | [] => (m, evs)
  | s :: t => let '(m', e) := arrive s m in arrivals t m' (evs ++ e)
  end.
(** The whole course of events if the signals [arr i] arrive just before the
    i-th action (and after the last). *)
Fixpoint course (restore_ok : bool) (arr : nat -> list signal) (i : nat) (acts : list act) (m : mach) (evs : list sev) : mach * list sev :=
  let '(m1, evs1) := arrivals (arr i) m evs in
  match acts with
  | [] => (m1, evs1)
  | a :: t => let '(m2, e) := act_step restore_ok a m1 in course restore_ok arr (S i) t m2 (evs1 ++ e)
  end.
Definition as_found : mach := mk_mach (fun _ => false) (fun _ => false) Term_as_found.

(** The documented methods. *)
Inductive method_syntax : bytes -> entry -> bytes -> Prop :=
| ms_tty_stdin : method_syntax (str "dev:tty-stdin") PASSPHRASE_TTY_STDIN (str "tty-stdin")
| ms_stdin_once : method_syntax (str "dev:stdin-once") PASSPHRASE_STDIN_ONCE (str "stdin-once")
| ms_tty_once : method_syntax (str "dev:tty-once") PASSPHRASE_TTY_ONCE (str "tty-once")
| ms_env x : method_syntax (str "env:" ++ x) PASSPHRASE_ENV x
| ms_file x : method_syntax (str "file:" ++ x) PASSPHRASE_FILE x.
