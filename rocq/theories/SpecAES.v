(** AES (FIPS 197) encryption and counter mode, written from the standard.
    A state is the 16 bytes in input order: s[r,c] is element r + 4c. *)
From Verif Require Import Base SpecBytes.

(** 4.2: multiplication in GF(2^8) modulo x^8 + x^4 + x^3 + x + 1. *)
Definition xtime (b : N) : N :=
  if N.testbit b 7 then N.lxor (w8 (N.shiftl b 1)) 0x1b else N.shiftl b 1.
Fixpoint gmul_fuel (n : nat) (a b : N) : N :=
  match n with
  | O => 0
  | S m => N.lxor (if N.testbit b 0 then a else 0) (gmul_fuel m (xtime a) (N.shiftr b 1))
  end.
Definition gmul (a b : N) : N := gmul_fuel 8 a b.
(** Multiplicative inverse (0 for 0): a^254. *)
Definition ginv (a : N) : N :=
  let a2 := gmul a a in let a4 := gmul a2 a2 in let a8 := gmul a4 a4 in
  let a16 := gmul a8 a8 in let a32 := gmul a16 a16 in let a64 := gmul a32 a32 in
  let a128 := gmul a64 a64 in
  gmul a2 (gmul a4 (gmul a8 (gmul a16 (gmul a32 (gmul a64 a128))))).
(** 5.1.1: the affine transformation b'_i = b_i + b_{i+4} + b_{i+5} + b_{i+6} + b_{i+7} + c_i *)
Definition rol8 (b : N) (k : N) : N := w8 (N.lor (N.shiftl b k) (N.shiftr b (8 - k))).
Definition sbox (a : N) : N :=
  let b := ginv a in
  N.lxor (N.lxor (N.lxor (N.lxor (N.lxor b (rol8 b 1)) (rol8 b 2)) (rol8 b 3)) (rol8 b 4)) 0x63.

(** 5.1 Cipher *)
Definition SubBytes (s : bytes) : bytes := map sbox s.
(** 5.1.2: s'[r,c] = s[r, (c + r) mod 4] *)
Definition ShiftRows (s : bytes) : bytes :=
  map (fun i => sel s (i mod 4 + 4 * ((i / 4 + i mod 4) mod 4))) (seq 0 16).
(** 5.1.3 *)
Definition MixColumn (a b c d : N) : bytes :=
  [N.lxor (N.lxor (N.lxor (gmul a 2) (gmul b 3)) c) d;
   N.lxor (N.lxor (N.lxor a (gmul b 2)) (gmul c 3)) d;
   N.lxor (N.lxor (N.lxor a b) (gmul c 2)) (gmul d 3);
   N.lxor (N.lxor (N.lxor (gmul a 3) b) c) (gmul d 2)].
Definition MixColumns (s : bytes) : bytes :=
  flat_map (fun c => MixColumn (sel s (4 * c)) (sel s (4 * c + 1)) (sel s (4 * c + 2)) (sel s (4 * c + 3)))
           (seq 0 4).
Definition AddRoundKey (s rk : bytes) : bytes := xorl s rk.

(** 5.2 Key expansion; a word is a list of four bytes. *)
Definition RotWord (w : bytes) : bytes := skipn 1 w ++ firstn 1 w.
Definition SubWord (w : bytes) : bytes := map sbox w.
(** Rcon[i] = [x^(i-1), 0, 0, 0], i >= 1 *)
Definition Rcon (i : nat) : bytes := [Nat.iter (i - 1) xtime 1; 0; 0; 0].
(** One more word, given the words w[0..i-1]. *)
Definition kexp_next (Nk : nat) (w : list bytes) : list bytes :=
  let i := length w in
  let temp := nth (i - 1) w [] in
  let temp := if Nat.eqb (i mod Nk) 0 then xorl (SubWord (RotWord temp)) (Rcon (i / Nk))
              else if Nat.ltb 6 Nk && Nat.eqb (i mod Nk) 4 then SubWord temp else temp in
  w ++ [xorl (nth (i - Nk) w []) temp].
Definition KeyExpansion (key : bytes) : list bytes :=
  let Nk := (length key / 4)%nat in
  let Nr := (Nk + 6)%nat in
  Nat.iter (4 * (Nr + 1) - Nk) (kexp_next Nk) (chunks 4 key).
(** Round key number j: words 4j .. 4j+3. *)
Definition round_key (w : list bytes) (j : nat) : bytes := concat (sub w (4 * j) 4).
Definition aes_round (w : list bytes) (s : bytes) (j : nat) : bytes :=
  AddRoundKey (MixColumns (ShiftRows (SubBytes s))) (round_key w j).
Definition Cipher (Nr : nat) (w : list bytes) (inp : bytes) : bytes :=
  let s := AddRoundKey inp (round_key w 0) in
  let s := fold_left (aes_round w) (seq 1 (Nr - 1)) s in
  AddRoundKey (ShiftRows (SubBytes s)) (round_key w Nr).
(** AES with a 16-, 24- or 32-byte key. *)
Definition aes_encrypt (key inp : bytes) : bytes :=
  Cipher (length key / 4 + 6) (KeyExpansion key) inp.

(** Counter mode with an 8-byte nonce and an 8-byte big-endian block counter:
    byte number i of the key stream. *)
Definition ctr_block (key : bytes) (nonce ctr : N) : bytes :=
  aes_encrypt key (be_bytes 8 nonce ++ be_bytes 8 ctr).
Definition ctr_byte (key : bytes) (nonce : N) (i : N) : N :=
  sel (ctr_block key nonce (i / 16)) (N.to_nat (i mod 16)).
(** [data] xored with the key stream from byte position [pos] on. *)
Fixpoint aes_ctr (key : bytes) (nonce pos : N) (data : bytes) : bytes :=
  match data with
  | [] => []
  | b :: t => N.lxor b (ctr_byte key nonce pos) :: aes_ctr key nonce (pos + 1) t
  end.

(** FIPS 197 figure 7 (first and last rows) and appendix C. *)
Example sbox_rows :
  map sbox [0;1;2;3;4;5;6;7;8;9;10;11;12;13;14;15] =
    [0x63;0x7c;0x77;0x7b;0xf2;0x6b;0x6f;0xc5;0x30;0x01;0x67;0x2b;0xfe;0xd7;0xab;0x76] /\
  map sbox [0xf0;0xf1;0xf2;0xf3;0xf4;0xf5;0xf6;0xf7;0xf8;0xf9;0xfa;0xfb;0xfc;0xfd;0xfe;0xff] =
    [0x8c;0xa1;0x89;0x0d;0xbf;0xe6;0x42;0x68;0x41;0x99;0x2d;0x0f;0xb0;0x54;0xbb;0x16].
Proof. split; vm_compute; reflexivity. Qed.
Definition fips_pt : bytes :=
  [0x00;0x11;0x22;0x33;0x44;0x55;0x66;0x77;0x88;0x99;0xaa;0xbb;0xcc;0xdd;0xee;0xff].
Example fips197_c1 : aes_encrypt (map N.of_nat (seq 0 16)) fips_pt =
  [0x69;0xc4;0xe0;0xd8;0x6a;0x7b;0x04;0x30;0xd8;0xcd;0xb7;0x80;0x70;0xb4;0xc5;0x5a].
Proof. vm_compute. reflexivity. Qed.
Example fips197_c2 : aes_encrypt (map N.of_nat (seq 0 24)) fips_pt =
  [0xdd;0xa9;0x7c;0xa4;0x86;0x4c;0xdf;0xe0;0x6e;0xaf;0x70;0xa0;0xec;0x0d;0x71;0x91].
Proof. vm_compute. reflexivity. Qed.
Example fips197_c3 : aes_encrypt (map N.of_nat (seq 0 32)) fips_pt =
  [0x8e;0xa2;0xb7;0xca;0x51;0x67;0x45;0xbf;0xea;0xfc;0x49;0x90;0x4b;0x49;0x60;0x89].
Proof. vm_compute. reflexivity. Qed.
