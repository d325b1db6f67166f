(** scrypt, written from RFC 7914 and from the Salsa20 specification
    (D. J. Bernstein, "Salsa20 specification"), independently of /repo. *)
From Verif Require Import Base SpecBytes SpecSHA.

(* ---------------- Salsa20 specification, sections 3-7 ------------------- *)
Definition rotl32 (n x : N) : N := N.lor (w32 (N.shiftl x n)) (N.shiftr x (32 - n)).
(** quarterround(y0,y1,y2,y3) = (z0,z1,z2,z3) *)
Definition quarterround (y0 y1 y2 y3 : N) : N * N * N * N :=
  let z1 := N.lxor y1 (rotl32 7 (add32 y0 y3)) in
  let z2 := N.lxor y2 (rotl32 9 (add32 z1 y0)) in
  let z3 := N.lxor y3 (rotl32 13 (add32 z2 z1)) in
  let z0 := N.lxor y0 (rotl32 18 (add32 z3 z2)) in
  (z0, z1, z2, z3).
Definition rowround (y : list N) : list N :=
  match y with
  | [y0; y1; y2; y3; y4; y5; y6; y7; y8; y9; y10; y11; y12; y13; y14; y15] =>
      let '(z0, z1, z2, z3) := quarterround y0 y1 y2 y3 in
      let '(z5, z6, z7, z4) := quarterround y5 y6 y7 y4 in
      let '(z10, z11, z8, z9) := quarterround y10 y11 y8 y9 in
      let '(z15, z12, z13, z14) := quarterround y15 y12 y13 y14 in
      [z0; z1; z2; z3; z4; z5; z6; z7; z8; z9; z10; z11; z12; z13; z14; z15]
  | _ => y
  end.
Definition columnround (x : list N) : list N :=
  match x with
  | [x0; x1; x2; x3; x4; x5; x6; x7; x8; x9; x10; x11; x12; x13; x14; x15] =>
      let '(y0, y4, y8, y12) := quarterround x0 x4 x8 x12 in
      let '(y5, y9, y13, y1) := quarterround x5 x9 x13 x1 in
      let '(y10, y14, y2, y6) := quarterround x10 x14 x2 x6 in
      let '(y15, y3, y7, y11) := quarterround x15 x3 x7 x11 in
      [y0; y1; y2; y3; y4; y5; y6; y7; y8; y9; y10; y11; y12; y13; y14; y15]
  | _ => x
  end.
Definition doubleround (x : list N) : list N := rowround (columnround x).
(** Salsa20/8 core on 16 words: x + doubleround^4(x), word by word. *)
Definition salsa20_8_words (x : list N) : list N :=
  map2 add32 x (Nat.iter 4 doubleround x).

(** Little-endian words of an octet string, and back. *)
Definition le_words (b : bytes) : list N := map le_val (chunks 4 b).
Definition le_unwords (ws : list N) : bytes := flat_map (le_bytes 4) ws.

(* ---------------- RFC 7914, section 3 ----------------------------------- *)
Definition Salsa20_8 (B : bytes) : bytes := le_unwords (salsa20_8_words (le_words B)).

(* ---------------- RFC 7914, section 4: scryptBlockMix ------------------- *)
(** Steps 2: X := Salsa(X xor B[i]); Y[i] := X, for the blocks in order. *)
Fixpoint mix_chain (X : bytes) (Bs : list bytes) : list bytes :=
  match Bs with
  | [] => []
  | B :: Bs' => let X' := Salsa20_8 (xorl X B) in X' :: mix_chain X' Bs'
  end.
Fixpoint evens {A} (l : list A) : list A :=
  match l with a :: _ :: t => a :: evens t | [a] => [a] | [] => [] end.
Fixpoint odds {A} (l : list A) : list A :=
  match l with _ :: b :: t => b :: odds t | _ => [] end.
Definition scryptBlockMix (B : bytes) : bytes :=
  let Bs := chunks 64 B in
  let Y := mix_chain (last Bs []) Bs in
  concat (evens Y ++ odds Y).

(* ---------------- RFC 7914, section 5: scryptROMix ---------------------- *)
(** Integerify: the last 64-octet block as a little-endian integer. *)
Definition Integerify (B : bytes) : N := le_val (last (chunks 64 B) []).
(** V[j] = BlockMix applied j times to the input. *)
Definition romix_V (B : bytes) (j : N) : bytes := N.iter j scryptBlockMix B.
Definition romix_step (N_ : N) (B X : bytes) : bytes :=
  scryptBlockMix (xorl X (romix_V B (Integerify X mod N_))).
Definition scryptROMix (N_ : N) (B : bytes) : bytes :=
  N.iter N_ (romix_step N_ B) (romix_V B N_).

(* ---------------- RFC 7914, section 6: scrypt --------------------------- *)
Definition scrypt (P S_ : bytes) (N_ r p : N) (dkLen : nat) : bytes :=
  let B := pbkdf2 P S_ 1 (N.to_nat (p * 128 * r)) in
  let B' := flat_map (scryptROMix N_) (chunks (N.to_nat (128 * r)) B) in
  pbkdf2 P B' 1 dkLen.
