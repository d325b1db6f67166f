(** The grammar of command-line options documented at the top of
    libcperciva/util/getopt.h.  Strings are C strings without the NUL; '-' is
    45 and '=' is 61. *)
From Verif Require Import Base.

(** A table of options: name ("-x" or "--foo") and whether it takes an argument. *)
Definition table := list (list N * bool).
Definition short_name (n : list N) : Prop := exists c, n = [45; c] /\ c <> 45.
Definition long_name (n : list N) : Prop := exists c t, n = 45 :: 45 :: c :: t.
Definition good_table (T : table) : Prop :=
  NoDup (map fst T) /\ Forall (fun o => (short_name (fst o) \/ long_name (fst o)) /\ ~ In 61 (fst o)) T.

Inductive event :=
| Flag (name : list N)              (* an option without argument *)
| Arg (name arg : list N)           (* an option with its argument *)
| Missing (name : list N)           (* the argument is missing *)
| Unexpected (name : list N)        (* --foo=bar, but --foo takes no argument *)
| Unknown (text : list N).          (* not in the table *)

Section Grammar.
  Context (T : table).
  Definition known (n : list N) (b : bool) : Prop := In (n, b) T.
  Definition not_known (n : list N) : Prop := forall b, ~ In (n, b) T.
  (** [parse args evs rest]: the arguments contain the events evs, and rest is
      what is left for the program. *)
  Inductive parse : list (list N) -> list event -> list (list N) -> Prop :=
  | parse_end : parse [] [] []
  (* "--" is consumed and ends the options *)
  | parse_dashdash args : parse ([45; 45] :: args) [] args
  (* a bare "-" or an argument not starting with '-' ends the options *)
  | parse_dash args : parse ([45] :: args) [] ([45] :: args)
  | parse_empty args : parse ([] :: args) [] ([] :: args)
  | parse_other c a args : c <> 45 -> parse ((c :: a) :: args) [] ((c :: a) :: args)
  (* -abc *)
  | parse_cluster c cs args evs rest : c <> 45 -> cluster (c :: cs) args evs rest -> parse ((45 :: c :: cs) :: args) evs rest
  (* --foo *)
  | parse_flag n args evs rest : long_name n -> ~ In 61 n -> known n false -> parse args evs rest -> parse (n :: args) (Flag n :: evs) rest
  | parse_unexpected n v args evs rest : long_name n -> ~ In 61 n -> known n false -> parse args evs rest ->
      parse ((n ++ 61 :: v) :: args) (Unexpected n :: evs) rest
  | parse_arg n a args evs rest : long_name n -> ~ In 61 n -> known n true -> parse args evs rest -> parse (n :: a :: args) (Arg n a :: evs) rest
  | parse_arg_eq n v args evs rest : long_name n -> ~ In 61 n -> known n true -> parse args evs rest ->
      parse ((n ++ 61 :: v) :: args) (Arg n v :: evs) rest
  | parse_missing n : long_name n -> ~ In 61 n -> known n true -> parse [n] [Missing n] []
  | parse_unknown c t args evs rest : ~ In 61 (45 :: 45 :: c :: t) -> not_known (45 :: 45 :: c :: t) -> parse args evs rest ->
      parse ((45 :: 45 :: c :: t) :: args) (Unknown (45 :: 45 :: c :: t) :: evs) rest
  | parse_unknown_eq n v args evs rest : (n = [45; 45] \/ long_name n) -> ~ In 61 n -> not_known n -> parse args evs rest ->
      parse ((n ++ 61 :: v) :: args) (Unknown (n ++ 61 :: v) :: evs) rest
  (** [cluster cs args evs rest]: the characters cs of an argument -abc remain. *)
  with cluster : list N -> list (list N) -> list event -> list (list N) -> Prop :=
  | cluster_end args evs rest : parse args evs rest -> cluster [] args evs rest
  | cluster_flag c cs args evs rest : known [45; c] false -> cluster cs args evs rest -> cluster (c :: cs) args (Flag [45; c] :: evs) rest
  | cluster_unknown c cs args evs rest : not_known [45; c] -> cluster cs args evs rest -> cluster (c :: cs) args (Unknown [45; c] :: evs) rest
  (* -cfoo *)
  | cluster_attached c a cs args evs rest : known [45; c] true -> parse args evs rest ->
      cluster (c :: a :: cs) args (Arg [45; c] (a :: cs) :: evs) rest
  (* -c foo *)
  | cluster_arg c a args evs rest : known [45; c] true -> parse args evs rest -> cluster [c] (a :: args) (Arg [45; c] a :: evs) rest
  | cluster_missing c : known [45; c] true -> cluster [c] [] [Missing [45; c]] [].
End Grammar.
