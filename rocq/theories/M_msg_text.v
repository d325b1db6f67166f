(** The text of the messages of lib/scryptenc/scryptenc.c. *)
From Coq Require Import String.
From Verif Require Import Base SpecAscii M_double M_humansize M_params M_scryptenc.
Local Open Scope list_scope.

Section Text.
  (** printf's %.1f (the C library's). *)
  Context (fmt_f1 : double -> bytes).
  (* scryptenc.c:80-95: the text printed by display_params *)
  Definition params_text (m : params_msg) : bytes :=
    str "Parameters used: N = " ++ print_dec (pm_N m) ++ str "; r = " ++ print_dec (pm_r m)
      ++ str "; p = " ++ print_dec (pm_p m) ++ str ";" ++ [newline]
    ++ str "    Decrypting this file requires at least" ++ str " " ++ pm_mem m ++ str " of memory"
    ++ match pm_avail m with Some a => str " (" ++ a ++ str " available)" | None => [] end
    ++ match pm_time m with
       | Some (t, l) => str "," ++ [newline] ++ str "    and will take approximately " ++ fmt_f1 t ++ str " "
                        ++ str "seconds (limit: " ++ fmt_f1 l ++ str " seconds)"
       | None => []
       end
    ++ str "." ++ [newline].
  (** The warnings of scryptenc.c:252-261 (warn0, without the program name). *)
  Definition msg_text (m : msg) : bytes :=
    match m with
    | Msg_params m => params_text m
    | Msg_warn_mem => str "Warning: Explicit parameters might exceed memory limit"
    | Msg_warn_time => str "Warning: Explicit parameters might exceed time limit"
    end.
End Text.
