(** Properties C35, C36: human-readable sizes. *)
From Verif Require Import Base SpecText M_humansize P_humansize.

(** C35.  The text denotes a value not above the size, and no admissible text
    denotes a larger value not above the size. *)
Theorem C35_humansize size : size < 2 ^ 64 ->
  exists s v, humansize true size = Ok (Some s) /\ human v s /\ v <= size /\
    (forall v' s', human v' s' -> v' <= size -> v' <= v).
Proof. exact (humansize_spec size). Qed.
Print Assumptions C35_humansize.
(** "1.5 GB" *)
Example C35_case : humansize true 1599999999 = Ok (Some [49; 46; 53; 32; 71; 66]).
Proof. vm_compute. reflexivity. Qed.

(** C36.  Success exactly on the grammar, with the value; whatever the
    caller's variable held before. *)
Theorem C36_humansize_parse size0 s v :
  humansize_parse size0 s = Some v <-> human_grammar s v /\ v < 2 ^ 64.
Proof. exact (humansize_parse_spec size0 s v). Qed.
Print Assumptions C36_humansize_parse.
Example C36_case : humansize_parse 7 [49; 48; 32; 107; 66] = Some 10000.   (* "10 kB" *)
Proof. vm_compute. reflexivity. Qed.
