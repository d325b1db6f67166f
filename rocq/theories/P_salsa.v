(** The Salsa20/8 core: array code = quarter rounds. *)
From Verif Require Import Base SpecBytes SpecSHA SpecScrypt M_endian P_endian M_sha256_tr M_simd
  M_sha256_hw M_sha256 P_sha256_tr P_sha256_hw P_sha256 M_smix.

(* ---------------- array access helpers ---------------- *)
Lemma rd_at {A} (a b c : list A) o n : o = length a -> n = length b -> rd (a ++ b ++ c) o n = Ok b.
Proof.
  intros -> ->. rewrite rd_ok by (rewrite !app_length; lia). rewrite sub_app_mid. reflexivity.
Qed.
Lemma rd_at0 {A} (b c : list A) n : n = length b -> rd (b ++ c) 0 n = Ok b.
Proof. intros H. apply (rd_at [] b c 0 n); auto. Qed.
Lemma rd_all {A} (b : list A) n : n = length b -> rd b 0 n = Ok b.
Proof. intros ->. rewrite rd_ok by lia. rewrite sub_0_all; auto. Qed.
Lemma wr_at {A} (a b c d : list A) o : o = length a -> length b = length d ->
  wr (a ++ b ++ c) o d = Ok (a ++ d ++ c).
Proof.
  intros -> H. rewrite wr_ok by (rewrite !app_length; lia). rewrite upd_app by exact H. reflexivity.
Qed.
Lemma wr_all {A} (b d : list A) : length d = length b -> wr b 0 d = Ok d.
Proof. intros H. rewrite wr_ok by lia. rewrite upd_0_full; auto. Qed.

Lemma sub_upd_same {A} (l d : list A) o n : n = length d -> (o + n <= length l)%nat ->
  sub (upd l o d) o n = d.
Proof.
  intros -> H. unfold upd, sub.
  rewrite skipn_app, firstn_length, Nat.min_l by lia. rewrite Nat.sub_diag.
  rewrite skipn_all2 by (rewrite firstn_length; lia). cbn [skipn app].
  rewrite firstn_app, Nat.sub_diag, firstn_all. cbn [firstn]. apply app_nil_r.
Qed.
Lemma sub_upd_before {A} (l d : list A) o o' n : (o' + n <= o)%nat -> (o + length d <= length l)%nat ->
  sub (upd l o d) o' n = sub l o' n.
Proof.
  intros H H'. unfold upd, sub.
  rewrite skipn_app, firstn_length, Nat.min_l by lia.
  rewrite firstn_app, skipn_length, firstn_length.
  replace (n - (Nat.min o (length l) - o'))%nat with 0%nat by lia. cbn [firstn]. rewrite app_nil_r.
  rewrite <- (firstn_skipn o l) at 2. rewrite skipn_app, firstn_app, firstn_length, skipn_length, firstn_length.
  replace (n - (Nat.min o (length l) - o'))%nat with 0%nat by lia. cbn [firstn]. rewrite app_nil_r. reflexivity.
Qed.

Lemma blkcpy_all dest src len : (4 * length dest = len)%nat -> length src = length dest ->
  blkcpy dest 0 src 0 len = Ok src.
Proof.
  intros H1 H2. unfold blkcpy. replace (len / 4)%nat with (length src).
  - rewrite rd_all by reflexivity. cbn [bind]. apply wr_all. lia.
  - rewrite <- H1, Nat.mul_comm, Nat.div_mul; lia.
Qed.

(* ---------------- the salsa20/8 core ---------------- *)
Ltac list16 x H :=
  do 16 (destruct x as [|? x]; [discriminate H|]); destruct x; [|discriminate H].

Lemma xr_length x a b c n : length (xr x a b c n) = length x.
Proof. apply set_nth_length. Qed.
Lemma salsa_q0 x0 x1 x2 x3 x4 x5 x6 x7 x8 x9 x10 x11 x12 x13 x14 x15 y0 y4 y8 y12 :
  quarterround x0 x4 x8 x12 = (y0, y4, y8, y12) ->
  xr (xr (xr (xr [x0; x1; x2; x3; x4; x5; x6; x7; x8; x9; x10; x11; x12; x13; x14; x15] 4 0 12 7) 8 4 0 9) 12 8 4 13) 0 12 8 18 =
  [y0; x1; x2; x3; y4; x5; x6; x7; y8; x9; x10; x11; y12; x13; x14; x15].
Proof. intros E. injection E as <- <- <- <-. reflexivity. Qed.
Lemma salsa_q1 x0 x1 x2 x3 x4 x5 x6 x7 x8 x9 x10 x11 x12 x13 x14 x15 y5 y9 y13 y1 :
  quarterround x5 x9 x13 x1 = (y5, y9, y13, y1) ->
  xr (xr (xr (xr [x0; x1; x2; x3; x4; x5; x6; x7; x8; x9; x10; x11; x12; x13; x14; x15] 9 5 1 7) 13 9 5 9) 1 13 9 13) 5 1 13 18 =
  [x0; y1; x2; x3; x4; y5; x6; x7; x8; y9; x10; x11; x12; y13; x14; x15].
Proof. intros E. injection E as <- <- <- <-. reflexivity. Qed.
Lemma salsa_q2 x0 x1 x2 x3 x4 x5 x6 x7 x8 x9 x10 x11 x12 x13 x14 x15 y10 y14 y2 y6 :
  quarterround x10 x14 x2 x6 = (y10, y14, y2, y6) ->
  xr (xr (xr (xr [x0; x1; x2; x3; x4; x5; x6; x7; x8; x9; x10; x11; x12; x13; x14; x15] 14 10 6 7) 2 14 10 9) 6 2 14 13) 10 6 2 18 =
  [x0; x1; y2; x3; x4; x5; y6; x7; x8; x9; y10; x11; x12; x13; y14; x15].
Proof. intros E. injection E as <- <- <- <-. reflexivity. Qed.
Lemma salsa_q3 x0 x1 x2 x3 x4 x5 x6 x7 x8 x9 x10 x11 x12 x13 x14 x15 y15 y3 y7 y11 :
  quarterround x15 x3 x7 x11 = (y15, y3, y7, y11) ->
  xr (xr (xr (xr [x0; x1; x2; x3; x4; x5; x6; x7; x8; x9; x10; x11; x12; x13; x14; x15] 3 15 11 7) 7 3 15 9) 11 7 3 13) 15 11 7 18 =
  [x0; x1; x2; y3; x4; x5; x6; y7; x8; x9; x10; y11; x12; x13; x14; y15].
Proof. intros E. injection E as <- <- <- <-. reflexivity. Qed.
Lemma salsa_q4 x0 x1 x2 x3 x4 x5 x6 x7 x8 x9 x10 x11 x12 x13 x14 x15 y0 y1 y2 y3 :
  quarterround x0 x1 x2 x3 = (y0, y1, y2, y3) ->
  xr (xr (xr (xr [x0; x1; x2; x3; x4; x5; x6; x7; x8; x9; x10; x11; x12; x13; x14; x15] 1 0 3 7) 2 1 0 9) 3 2 1 13) 0 3 2 18 =
  [y0; y1; y2; y3; x4; x5; x6; x7; x8; x9; x10; x11; x12; x13; x14; x15].
Proof. intros E. injection E as <- <- <- <-. reflexivity. Qed.
Lemma salsa_q5 x0 x1 x2 x3 x4 x5 x6 x7 x8 x9 x10 x11 x12 x13 x14 x15 y5 y6 y7 y4 :
  quarterround x5 x6 x7 x4 = (y5, y6, y7, y4) ->
  xr (xr (xr (xr [x0; x1; x2; x3; x4; x5; x6; x7; x8; x9; x10; x11; x12; x13; x14; x15] 6 5 4 7) 7 6 5 9) 4 7 6 13) 5 4 7 18 =
  [x0; x1; x2; x3; y4; y5; y6; y7; x8; x9; x10; x11; x12; x13; x14; x15].
Proof. intros E. injection E as <- <- <- <-. reflexivity. Qed.
Lemma salsa_q6 x0 x1 x2 x3 x4 x5 x6 x7 x8 x9 x10 x11 x12 x13 x14 x15 y10 y11 y8 y9 :
  quarterround x10 x11 x8 x9 = (y10, y11, y8, y9) ->
  xr (xr (xr (xr [x0; x1; x2; x3; x4; x5; x6; x7; x8; x9; x10; x11; x12; x13; x14; x15] 11 10 9 7) 8 11 10 9) 9 8 11 13) 10 9 8 18 =
  [x0; x1; x2; x3; x4; x5; x6; x7; y8; y9; y10; y11; x12; x13; x14; x15].
Proof. intros E. injection E as <- <- <- <-. reflexivity. Qed.
Lemma salsa_q7 x0 x1 x2 x3 x4 x5 x6 x7 x8 x9 x10 x11 x12 x13 x14 x15 y15 y12 y13 y14 :
  quarterround x15 x12 x13 x14 = (y15, y12, y13, y14) ->
  xr (xr (xr (xr [x0; x1; x2; x3; x4; x5; x6; x7; x8; x9; x10; x11; x12; x13; x14; x15] 12 15 14 7) 13 12 15 9) 14 13 12 13) 15 14 13 18 =
  [x0; x1; x2; x3; x4; x5; x6; x7; x8; x9; x10; x11; y12; y13; y14; y15].
Proof. intros E. injection E as <- <- <- <-. reflexivity. Qed.
Lemma salsa_body_spec x : length x = 16%nat -> salsa_body x = doubleround x.
Proof.
  intros H. do 16 (destruct x as [|? x]; [discriminate H|]); destruct x; [|discriminate H].
  revert n n0 n1 n2 n3 n4 n5 n6 n7 n8 n9 n10 n11 n12 n13 n14 H. intros x0 x1 x2 x3 x4 x5 x6 x7 x8 x9 x10 x11 x12 x13 x14 x15 _.
  unfold salsa_body. cbv zeta. unfold doubleround, columnround.
  destruct (quarterround x0 x4 x8 x12) as [[[x0' x4'] x8'] x12'] eqn:E0.
  rewrite (salsa_q0 _ _ _ _ _ _ _ _ _ _ _ _ _ _ _ _ _ _ _ _ E0).
  destruct (quarterround x5 x9 x13 x1) as [[[x5' x9'] x13'] x1'] eqn:E1.
  rewrite (salsa_q1 _ _ _ _ _ _ _ _ _ _ _ _ _ _ _ _ _ _ _ _ E1).
  destruct (quarterround x10 x14 x2 x6) as [[[x10' x14'] x2'] x6'] eqn:E2.
  rewrite (salsa_q2 _ _ _ _ _ _ _ _ _ _ _ _ _ _ _ _ _ _ _ _ E2).
  destruct (quarterround x15 x3 x7 x11) as [[[x15' x3'] x7'] x11'] eqn:E3.
  rewrite (salsa_q3 _ _ _ _ _ _ _ _ _ _ _ _ _ _ _ _ _ _ _ _ E3).
  unfold rowround.
  destruct (quarterround x0' x1' x2' x3') as [[[x0'' x1''] x2''] x3''] eqn:E4.
  rewrite (salsa_q4 _ _ _ _ _ _ _ _ _ _ _ _ _ _ _ _ _ _ _ _ E4).
  destruct (quarterround x5' x6' x7' x4') as [[[x5'' x6''] x7''] x4''] eqn:E5.
  rewrite (salsa_q5 _ _ _ _ _ _ _ _ _ _ _ _ _ _ _ _ _ _ _ _ E5).
  destruct (quarterround x10' x11' x8' x9') as [[[x10'' x11''] x8''] x9''] eqn:E6.
  rewrite (salsa_q6 _ _ _ _ _ _ _ _ _ _ _ _ _ _ _ _ _ _ _ _ E6).
  destruct (quarterround x15' x12' x13' x14') as [[[x15'' x12''] x13''] x14''] eqn:E7.
  rewrite (salsa_q7 _ _ _ _ _ _ _ _ _ _ _ _ _ _ _ _ _ _ _ _ E7).
  reflexivity.
Qed.
Lemma rowround_length x : length x = 16%nat -> length (rowround x) = 16%nat.
Proof.
  intros H. list16 x H. unfold rowround.
  repeat match goal with |- context [quarterround ?a ?b ?c ?d] => destruct (quarterround a b c d) as [[[? ?] ?] ?] end.
  reflexivity.
Qed.
Lemma columnround_length x : length x = 16%nat -> length (columnround x) = 16%nat.
Proof.
  intros H. list16 x H. unfold columnround.
  repeat match goal with |- context [quarterround ?a ?b ?c ?d] => destruct (quarterround a b c d) as [[[? ?] ?] ?] end.
  reflexivity.
Qed.
Lemma doubleround_length x : length x = 16%nat -> length (doubleround x) = 16%nat.
Proof. intros H. apply rowround_length, columnround_length, H. Qed.
Lemma iter_doubleround_length n x : length x = 16%nat -> length (Nat.iter n doubleround x) = 16%nat.
Proof. intros H. induction n as [|n IH]; auto. apply doubleround_length, IH. Qed.
