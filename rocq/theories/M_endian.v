(** Model of libcperciva/util/sysendian.h. A byte pointer is the list of bytes
    found there; p[i] is [sel p i]. *)
From Verif Require Import Base.

(* sysendian.h:20-26 be16dec; the final (uint16_t) conversion is w16 *)
Definition w16 (x : N) : N := N.land x 0xffff.
(* sysendian.h:20-26 be16dec *)
Definition be16dec (p : bytes) : N := w16 (N.lor (sel p 1) (N.shiftl (sel p 0) 8)).
(* sysendian.h:28-35 be16enc *)
Definition be16enc (x : N) : bytes := [N.land (N.shiftr x 8) 0xff; N.land x 0xff].
(* sysendian.h:37-44 be32dec *)
Definition be32dec (p : bytes) : N :=
  N.lor (N.lor (N.lor (sel p 3) (w32 (N.shiftl (sel p 2) 8)))
               (w32 (N.shiftl (sel p 1) 16))) (w32 (N.shiftl (sel p 0) 24)).
(* sysendian.h:46-55 be32enc *)
Definition be32enc (x : N) : bytes :=
  [N.land (N.shiftr x 24) 0xff; N.land (N.shiftr x 16) 0xff;
   N.land (N.shiftr x 8) 0xff; N.land x 0xff].
(* sysendian.h:57-66 be64dec *)
Definition be64dec (p : bytes) : N :=
  N.lor (N.lor (N.lor (N.lor (N.lor (N.lor (N.lor
    (sel p 7) (w64 (N.shiftl (sel p 6) 8)))
    (w64 (N.shiftl (sel p 5) 16))) (w64 (N.shiftl (sel p 4) 24)))
    (w64 (N.shiftl (sel p 3) 32))) (w64 (N.shiftl (sel p 2) 40)))
    (w64 (N.shiftl (sel p 1) 48))) (w64 (N.shiftl (sel p 0) 56)).
(* sysendian.h:68-81 be64enc *)
Definition be64enc (x : N) : bytes :=
  [N.land (N.shiftr x 56) 0xff; N.land (N.shiftr x 48) 0xff;
   N.land (N.shiftr x 40) 0xff; N.land (N.shiftr x 32) 0xff;
   N.land (N.shiftr x 24) 0xff; N.land (N.shiftr x 16) 0xff;
   N.land (N.shiftr x 8) 0xff; N.land x 0xff].
(* sysendian.h:83-89 le16dec *)
Definition le16dec (p : bytes) : N := w16 (N.lor (sel p 0) (N.shiftl (sel p 1) 8)).
(* sysendian.h:91-98 le16enc *)
Definition le16enc (x : N) : bytes := [N.land x 0xff; N.land (N.shiftr x 8) 0xff].
(* sysendian.h:100-107 le32dec *)
Definition le32dec (p : bytes) : N :=
  N.lor (N.lor (N.lor (sel p 0) (w32 (N.shiftl (sel p 1) 8)))
               (w32 (N.shiftl (sel p 2) 16))) (w32 (N.shiftl (sel p 3) 24)).
(* sysendian.h:109-118 le32enc *)
Definition le32enc (x : N) : bytes :=
  [N.land x 0xff; N.land (N.shiftr x 8) 0xff;
   N.land (N.shiftr x 16) 0xff; N.land (N.shiftr x 24) 0xff].
(* sysendian.h:120-129 le64dec *)
Definition le64dec (p : bytes) : N :=
  N.lor (N.lor (N.lor (N.lor (N.lor (N.lor (N.lor
    (sel p 0) (w64 (N.shiftl (sel p 1) 8)))
    (w64 (N.shiftl (sel p 2) 16))) (w64 (N.shiftl (sel p 3) 24)))
    (w64 (N.shiftl (sel p 4) 32))) (w64 (N.shiftl (sel p 5) 40)))
    (w64 (N.shiftl (sel p 6) 48))) (w64 (N.shiftl (sel p 7) 56)).
(* sysendian.h:131-144 le64enc *)
Definition le64enc (x : N) : bytes :=
  [N.land x 0xff; N.land (N.shiftr x 8) 0xff;
   N.land (N.shiftr x 16) 0xff; N.land (N.shiftr x 24) 0xff;
   N.land (N.shiftr x 32) 0xff; N.land (N.shiftr x 40) 0xff;
   N.land (N.shiftr x 48) 0xff; N.land (N.shiftr x 56) 0xff].
