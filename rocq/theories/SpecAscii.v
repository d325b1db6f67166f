(** String literals as byte strings (used by models and specifications). *)
From Coq Require Import Ascii String.
From Verif Require Import Base.
Definition str (s : string) : bytes := List.map N_of_ascii (list_ascii_of_string s).
Notation newline := 10 (only parsing).
