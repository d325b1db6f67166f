(** The command line of scrypt, after scrypt.1: options, the settings they make,
    and which command lines are acceptable. *)
From Coq Require Import String.
From Verif Require Import Base SpecAscii M_double SpecNumber SpecText M_strto M_readpass SpecPass SpecGetopt.
Local Open Scope list_scope.

(** The options and whether they take an argument. *)
Definition scrypt_options : table :=
  [(str "-f", false); (str "--logN", true); (str "-M", true); (str "-m", true); (str "-p", true);
   (str "--passphrase", true); (str "-r", true); (str "-t", true); (str "-v", false); (str "-P", false)].

Record settings := mk_set {
  s_force : bool; s_verbose : bool;
  s_method : option (entry * bytes);          (* passphrase entry, if chosen *)
  s_maxmem : N; s_maxmemfrac : double; s_maxtime : double;
  s_logN : Z; s_r : N; s_p : N }.             (* explicit parameters; 0 is unset *)
(** Defaults: for enc 0, 0.125, 5 seconds; else 0, 0.5, 300 seconds. *)
Definition default_settings (enc : bool) : settings :=
  mk_set false false None 0 (if enc then d0_125 else d0_5) (of_N (if enc then 5 else 300)) 0 0 0.

Section Effects.
  Context (strtod : strtod_fn) (size_max : N).
  (** An integer option of type uint32_t: lo..hi. *)
  Definition natural (s : bytes) (lo hi x : N) : Prop :=
    exists neg v, integer 0 s neg v /\ v < 2 ^ 64 /\ x = wrapped neg v /\ lo <= x <= hi.
  (** A floating-point option: all of the text is a number, not below 0 and not above hi. *)
  Definition float (s : bytes) (hi x : double) : Prop :=
    exists n, (strtod s = (x, n, None) \/ strtod s = (x, n, Some 0)) /\ n = List.length s /\ s <> [] /\ dlt x d0 = false /\ dlt hi x = false.
  (** [effect s e s']: the option e changes the settings s to s'. *)
  Inductive effect : settings -> event -> settings -> Prop :=
  | eff_f f v m M fr t l r p : effect (mk_set f v m M fr t l r p) (Flag (str "-f")) (mk_set true v m M fr t l r p)
  | eff_v f v m M fr t l r p : effect (mk_set f v m M fr t l r p) (Flag (str "-v")) (mk_set f true m M fr t l r p)
  | eff_P f v M fr t l r p : effect (mk_set f v None M fr t l r p) (Flag (str "-P"))
      (mk_set f v (Some (PASSPHRASE_STDIN_ONCE, [])) M fr t l r p)
  | eff_pass f v M fr t l r p a e x : method_syntax a e x ->
      effect (mk_set f v None M fr t l r p) (Arg (str "--passphrase") a) (mk_set f v (Some (e, x)) M fr t l r p)
  | eff_M f v m M fr t l r p a x : human_grammar a x -> x < 2 ^ 64 -> x <= size_max ->
      effect (mk_set f v m M fr t l r p) (Arg (str "-M") a) (mk_set f v m x fr t l r p)
  | eff_m f v m M fr t l r p a x : float a d0_5 x ->
      effect (mk_set f v m M fr t l r p) (Arg (str "-m") a) (mk_set f v m M x t l r p)
  | eff_t f v m M fr t l r p a x : float a dinf x ->
      effect (mk_set f v m M fr t l r p) (Arg (str "-t") a) (mk_set f v m M fr x l r p)
  | eff_logN f v m M fr t l r p a neg n : integer 0 a neg n -> (10 <= signed neg n <= 40)%Z ->
      effect (mk_set f v m M fr t l r p) (Arg (str "--logN") a) (mk_set f v m M fr t (signed neg n) r p)
  | eff_r f v m M fr t l r p a x : natural a 1 32 x ->
      effect (mk_set f v m M fr t l r p) (Arg (str "-r") a) (mk_set f v m M fr t l x p)
  | eff_p f v m M fr t l r p a x : natural a 1 2048 x ->
      effect (mk_set f v m M fr t l r p) (Arg (str "-p") a) (mk_set f v m M fr t l r x).
  Inductive effects : settings -> list event -> settings -> Prop :=
  | effs_nil s : effects s [] s
  | effs_cons s e s1 es s2 : effect s e s1 -> effects s1 es s2 -> effects s (e :: es) s2.
End Effects.

(** infile ["-" for standard input] and optionally outfile *)
Inductive file_arguments : list bytes -> option bytes -> option bytes -> Prop :=
| fa_stdin : file_arguments [str "-"] None None
| fa_in n : n <> str "-" -> file_arguments [n] (Some n) None
| fa_stdin_out o : file_arguments [str "-"; o] None (Some o)
| fa_in_out n o : n <> str "-" -> file_arguments [n; o] (Some n) (Some o).
(** Explicit parameters all set or all unset; some memory; passphrase and input
    not both demanded from standard input. *)
Definition acceptable (s : settings) (infile : option bytes) : Prop :=
  ((s_logN s = 0%Z /\ s_r s = 0 /\ s_p s = 0) \/ (s_logN s <> 0%Z /\ s_r s <> 0 /\ s_p s <> 0)) /\
  deq (s_maxmemfrac s) d0 = false /\
  ~ (infile = None /\ exists a, s_method s = Some (PASSPHRASE_STDIN_ONCE, a)).
