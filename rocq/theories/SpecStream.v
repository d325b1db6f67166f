(** What an input stream contains, independently of how it is read. *)
From Verif Require Import Base M_stdio.

(** The data up to the first end-of-file or error condition, and whether that
    condition is an error. *)
Fixpoint pieces_data (ps : list (bytes * bool)) : bytes :=
  match ps with
  | [] => []
  | (d, e) :: t => d ++ (if e then [] else match d with [] => [] | _ => pieces_data t end)
  end.
Fixpoint pieces_fail (ps : list (bytes * bool)) : bool :=
  match ps with
  | [] => false
  | (d, e) :: t => if e then true else match d with [] => false | _ => pieces_fail t end
  end.
Definition stream_data (s : instream) : bytes := pieces_data (i_pieces s).
Definition stream_fails (s : instream) : bool := i_err s || pieces_fail (i_pieces s).
(** The same stream without the errors. *)
Definition no_errors (s : instream) : instream := mk_in (map (fun p => (fst p, false)) (i_pieces s)) false.
(** Every piece is a piece of bytes. *)
Definition input_ok (s : instream) : Prop := Forall (fun p => bytes_ok (fst p)) (i_pieces s).
(** [data] delivered in non-empty pieces without error: any schedule of reads. *)
Definition delivered (data : bytes) (s : instream) : Prop :=
  i_err s = false /\ Forall (fun p => fst p <> [] /\ snd p = false) (i_pieces s) /\ concat (map fst (i_pieces s)) = data.
(** No coming fwrite is short. *)
Definition out_good (fo : outstream) : Prop := Forall (fun x => x = None) (o_plan fo).
Definition prefix (a b : bytes) : Prop := exists c, b = a ++ c.
