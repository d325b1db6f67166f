(** How limits on memory and time enter the outcome of a decryption. *)
From Verif Require Import Base SpecBytes SpecSHA SpecScrypt SpecScryptAPI SpecFormat M_machine M_params M_scryptenc SpecScryptenc.

(** The header is complete, intact and carries valid parameters, so that the
    decision about the resources is taken. *)
Definition reaches_limits (n : nat) (f : bytes) : Prop :=
  (n <= length f)%nat /\ firstn 6 f = fmt_magic /\ nth 6 f 0 = 0 /\ checksum_ok f /\ fhead_ok (get_head f).
(** If the limits refuse the parameters with status v, that is the outcome for an
    intact header; otherwise (or if v is SCRYPT_OK) the outcome is that of [class]. *)
Inductive limited (n : nat) (f : bytes) (class : rcode -> Prop) (v : rcode) : rcode -> Prop :=
| L_refused : v <> SCRYPT_OK -> reaches_limits n f -> limited n f class v v
| L_class rc : v = SCRYPT_OK \/ ~ reaches_limits n f -> class rc -> limited n f class v rc.
