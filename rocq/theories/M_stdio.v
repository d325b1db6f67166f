(** stdio streams as scryptenc.c uses them.  (fread and fwrite themselves are
    the C library's; this is what the standard allows them to do.) *)
From Verif Require Import Base.

(** An input stream: the pieces in which its remaining data will be delivered.
    After a piece marked true a read error occurs; an empty piece is an
    end-of-file condition (or, marked, an error without data), and so is the
    end of the list.  [i_err] is the sticky error indicator (ferror). *)
Record instream := mk_in { i_pieces : list (bytes * bool); i_err : bool }.
(** fread(buf, 1, n, f): at most n bytes, possibly fewer; 0 bytes at end of file
    or on error. *)
Definition fread1 (n : nat) (s : instream) : bytes * instream :=
  match i_pieces s with
  | [] => ([], s)
  | (d, e) :: t =>
      if Nat.ltb n (length d) || (Nat.eqb n (length d) && e)
      then (firstn n d, mk_in ((skipn n d, e) :: t) (i_err s))
      else (d, mk_in t (i_err s || e))
  end.
(** fread(buf, n, 1, f): the bytes obtained and whether all n were (return
    value 1): pieces are joined until an end-of-file or error condition. *)
Fixpoint fread_all (pieces : list (bytes * bool)) (err : bool) (n : nat) : bytes * bool * instream :=
  match n with
  | O => ([], true, mk_in pieces err)
  | S _ =>
      match pieces with
      | [] => ([], false, mk_in [] err)
      | (d, e) :: t =>
          if Nat.ltb n (length d) || (Nat.eqb n (length d) && e)
          then (firstn n d, true, mk_in ((skipn n d, e) :: t) err)
          else if Nat.eqb n (length d) then (d, true, mk_in t err)
          else if (Nat.eqb (length d) 0) || e then (d, false, mk_in t (err || e))
          else let '(x, ok, s) := fread_all t err (n - length d) in (d ++ x, ok, s)
      end
  end.
(* ISO C fread of n items of size 1 *)
Definition fread_n (n : nat) (s : instream) : bytes * bool * instream := fread_all (i_pieces s) (i_err s) n.
(* ISO C ferror *)
Definition ferror (s : instream) : bool := i_err s.

(** An output stream: what was written so far, what the coming fwrite calls
    will do (Some k: only k bytes are written; None or end of list: success), and
    whether a write was short so far. *)
Record outstream := mk_out { o_data : bytes; o_plan : list (option nat); o_err : bool }.
(** fwrite of all of [d]; true if complete. *)
Definition fwrite (d : bytes) (s : outstream) : bool * outstream :=
  match o_plan s with
  | [] => (true, mk_out (o_data s ++ d) [] (o_err s))
  | None :: t => (true, mk_out (o_data s ++ d) t (o_err s))
  | Some k :: t =>
      if Nat.ltb k (length d) then (false, mk_out (o_data s ++ firstn k d) t true)
      else (true, mk_out (o_data s ++ d) t (o_err s))
  end.
(** Upper bound of the number of fread1 calls that can return data, plus one. *)
Definition in_size (s : instream) : nat := S (fold_right (fun p n => S (length (fst p)) + n)%nat 0%nat (i_pieces s)).
