(** Model of the portable SHA-256 block transform, libcperciva/alg/sha256.c. *)
From Verif Require Import Base M_endian.

(** dst[o..] := map of a loop body; used by the *_vect functions. *)
(* sha256.c:49-60 be32enc_vect (the destination of exactly len bytes is the
   result; src words are the first len/4 elements of [src]) *)
Definition be32enc_vect (src : list N) (len : nat) : res bytes :=
  _ <- assert_ (Nat.eqb (len mod 4) 0) ;;
  s <- rd src 0 (len / 4) ;;
  Ok (flat_map be32enc s).

(* sha256.c:66-77 be32dec_vect: dst[i] = be32dec(src + i * 4), i < len/4 *)
Fixpoint be32dec_loop (n i : nat) (dst : list N) (src : bytes) : res (list N) :=
  match n with
  | O => Ok dst
  | S n' =>
      p <- rd src (i * 4) 4 ;;
      dst' <- wr dst i [be32dec p] ;;
      be32dec_loop n' (S i) dst' src
  end.
(* sha256.c:66-77 be32dec_vect *)
Definition be32dec_vect (dst : list N) (src : bytes) (len : nat) : res (list N) :=
  _ <- assert_ (Nat.eqb (len mod 4) 0) ;;
  be32dec_loop (len / 4) 0 dst src.

(* sha256.c:79-97 Krnd *)
Definition Krnd : list N := [
  0x428a2f98; 0x71374491; 0xb5c0fbcf; 0xe9b5dba5;
  0x3956c25b; 0x59f111f1; 0x923f82a4; 0xab1c5ed5;
  0xd807aa98; 0x12835b01; 0x243185be; 0x550c7dc3;
  0x72be5d74; 0x80deb1fe; 0x9bdc06a7; 0xc19bf174;
  0xe49b69c1; 0xefbe4786; 0x0fc19dc6; 0x240ca1cc;
  0x2de92c6f; 0x4a7484aa; 0x5cb0a9dc; 0x76f988da;
  0x983e5152; 0xa831c66d; 0xb00327c8; 0xbf597fc7;
  0xc6e00bf3; 0xd5a79147; 0x06ca6351; 0x14292967;
  0x27b70a85; 0x2e1b2138; 0x4d2c6dfc; 0x53380d13;
  0x650a7354; 0x766a0abb; 0x81c2c92e; 0x92722c85;
  0xa2bfe8a1; 0xa81a664b; 0xc24b8b70; 0xc76c51a3;
  0xd192e819; 0xd6990624; 0xf40e3585; 0x106aa070;
  0x19a4c116; 0x1e376c08; 0x2748774c; 0x34b0bcb5;
  0x391c0cb3; 0x4ed8aa4a; 0x5b9cca4f; 0x682e6ff3;
  0x748f82ee; 0x78a5636f; 0x84c87814; 0x8cc70208;
  0x90befffa; 0xa4506ceb; 0xbef9a3f7; 0xc67178f2 ].

(* sha256.c:99-103 initial_state *)
Definition initial_state : list N := [
  0x6A09E667; 0xBB67AE85; 0x3C6EF372; 0xA54FF53A;
  0x510E527F; 0x9B05688C; 0x1F83D9AB; 0x5BE0CD19 ].

(* sha256.c:200-207 elementary functions (uint32_t arithmetic) *)
Definition c_Ch (x y z : N) : N := N.lxor (N.land x (N.lxor y z)) z.
Definition c_Maj (x y z : N) : N := N.lor (N.land x (N.lor y z)) (N.land y z).
Definition c_SHR (x n : N) : N := N.shiftr x n.
Definition c_ROTR (x n : N) : N := N.lor (N.shiftr x n) (w32 (N.shiftl x (32 - n))).
Definition c_S0 (x : N) : N := N.lxor (N.lxor (c_ROTR x 2) (c_ROTR x 13)) (c_ROTR x 22).
Definition c_S1 (x : N) : N := N.lxor (N.lxor (c_ROTR x 6) (c_ROTR x 11)) (c_ROTR x 25).
Definition c_s0 (x : N) : N := N.lxor (N.lxor (c_ROTR x 7) (c_ROTR x 18)) (c_SHR x 3).
Definition c_s1 (x : N) : N := N.lxor (N.lxor (c_ROTR x 17) (c_ROTR x 19)) (c_SHR x 10).

(* sha256.c:210-213 RND; the arguments a..h are the indices of the cells of S *)
Definition RND (S : list N) (a b c d e f g h : nat) (k : N) : list N :=
  let S := set_nth S h (add32 (sel S h)
             (add32 (add32 (c_S1 (sel S e)) (c_Ch (sel S e) (sel S f) (sel S g))) k)) in
  let S := set_nth S d (add32 (sel S d) (sel S h)) in
  set_nth S h (add32 (sel S h)
             (add32 (c_S0 (sel S a)) (c_Maj (sel S a) (sel S b) (sel S c)))).

(* sha256.c:216-221 RNDr *)
Definition RNDr (S W : list N) (i ii : nat) : list N :=
  RND S ((64 - i) mod 8) ((65 - i) mod 8) ((66 - i) mod 8) ((67 - i) mod 8)
        ((68 - i) mod 8) ((69 - i) mod 8) ((70 - i) mod 8) ((71 - i) mod 8)
        (add32 (sel W (i + ii)) (sel Krnd (i + ii))).

(* sha256.c:224-225 MSCH *)
Definition MSCH (W : list N) (ii i : nat) : list N :=
  set_nth W (i + ii + 16)
    (add32 (add32 (add32 (c_s1 (sel W (i + ii + 14))) (sel W (i + ii + 9)))
                  (c_s0 (sel W (i + ii + 1)))) (sel W (i + ii))).

(* sha256.c:281-296 and 300-315: the sixteen unrolled invocations *)
Definition rnd16 (S W : list N) (i : nat) : list N :=
  fold_left (fun S j => RNDr S W j i) (seq 0 16) S.
(* sha256.c:300-315: the sixteen unrolled MSCH *)
Definition msch16 (W : list N) (i : nat) : list N :=
  fold_left (fun W j => MSCH W j i) (seq 0 16) W.

(* sha256.c:279-316: for (i = 0; i < 64; i += 16) { ...; if (i == 48) break; ... } *)
Definition mix_loop (S W : list N) : list N * list N :=
  let S := rnd16 S W 0 in let W := msch16 W 0 in
  let S := rnd16 S W 16 in let W := msch16 W 16 in
  let S := rnd16 S W 32 in let W := msch16 W 32 in
  let S := rnd16 S W 48 in (S, W).

(* sha256.c:318-320: state[i] += S[i], i < 8 *)
Definition add_state (state S : list N) : list N :=
  map (fun i => add32 (sel state i) (sel S i)) (seq 0 8).

(* sha256.c:232-321 SHA256_Transform, software path.  W is the scratch array
   of 64 words (its previous contents are arbitrary); S is fully overwritten. *)
Definition SHA256_Transform_sw (state : list N) (block : bytes) (W : list N)
  : res (list N) :=
  W <- be32dec_vect W block 64 ;;
  s <- rd state 0 8 ;;
  let '(S', _) := mix_loop s W in
  Ok (add_state state S').
