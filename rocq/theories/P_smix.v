(** Correctness of the mixing routines (crypto_scrypt_smix*.c). *)
From Verif Require Import Base SpecBytes SpecSHA SpecScrypt M_endian P_endian M_sha256_tr M_simd
  M_sha256_hw M_sha256 P_sha256_tr P_sha256_hw P_sha256 M_smix P_salsa.

Lemma map2_length f a b : length a = length b -> length (map2 f a b) = length a.
Proof. revert b; induction a as [|x a IH]; intros [|y b]; simpl; intros H; auto; try discriminate; f_equal; apply IH; lia. Qed.
Lemma salsa20_8_words_length x : length x = 16%nat -> length (salsa20_8_words x) = 16%nat.
Proof.
  intros H. unfold salsa20_8_words. rewrite map2_length; auto. rewrite iter_doubleround_length; auto.
Qed.
Lemma salsa20_8_words_ok x : length x = 16%nat -> words_ok (salsa20_8_words x).
Proof.
  intros H. unfold salsa20_8_words.
  pose proof (iter_doubleround_length 4 x H) as H4. revert H4. generalize (Nat.iter 4 doubleround x). clear H.
  intros y _. revert y. induction x as [|a x IH]; intros [|b y]; cbn [map2]; constructor; [apply add32_lt|apply IH].
Qed.
Lemma add_words_spec B x : length B = 16%nat -> length x = 16%nat -> add_words B x = map2 add32 B x.
Proof. intros H1 H2. list16 B H1. list16 x H2. reflexivity. Qed.
Lemma salsa_loop x : length x = 16%nat ->
  loop2 4 0 8 salsa_body x = Ok (Nat.iter 4 doubleround x).
Proof.
  intros H. cbn [loop2].
  change (0 <? 8) with true. cbv iota. change (0 + 2) with 2.
  change (2 <? 8) with true. cbv iota. change (2 + 2) with 4.
  change (4 <? 8) with true. cbv iota. change (4 + 2) with 6.
  change (6 <? 8) with true. cbv iota. change (6 + 2) with 8.
  change (8 <? 8) with false. cbv iota. f_equal.
  rewrite (salsa_body_spec x) by exact H.
  rewrite (salsa_body_spec (doubleround x)) by (apply doubleround_length; exact H).
  rewrite (salsa_body_spec (doubleround (doubleround x))) by (do 2 apply doubleround_length; exact H).
  rewrite salsa_body_spec by (do 3 apply doubleround_length; exact H).
  unfold Nat.iter, nat_rect. reflexivity.
Qed.
Lemma salsa20_8_correct B : length B = 16%nat -> salsa20_8 B = Ok (salsa20_8_words B).
Proof.
  intros H. unfold salsa20_8. rewrite rd_all by lia. cbn [bind]. rewrite salsa_loop by exact H. cbn [bind].
  rewrite add_words_spec by (rewrite ?iter_doubleround_length; auto).
  apply wr_all. apply map2_length. rewrite iter_doubleround_length; auto.
Qed.

(* ---------------- block mixing over an abstract core ---------------- *)
Fixpoint chainH (H : list N -> list N) (X : list N) (Bs : list (list N)) : list (list N) :=
  match Bs with
  | [] => []
  | B :: Bs' => let X' := H (xorl X B) in X' :: chainH H X' Bs'
  end.
Definition bmixH (H : list N -> list N) (sz : nat) (B : list N) : list N :=
  let Bs := chunks sz B in
  let Y := chainH H (last Bs []) Bs in
  concat (evens Y ++ odds Y).
Lemma mix_chain_chainH X Bs : mix_chain X Bs = chainH Salsa20_8 X Bs.
Proof. revert X; induction Bs as [|B Bs IH]; intros X; auto. cbn [mix_chain chainH]. rewrite IH. reflexivity. Qed.
Lemma scryptBlockMix_bmixH B : scryptBlockMix B = bmixH Salsa20_8 64 B.
Proof. unfold scryptBlockMix, bmixH. rewrite mix_chain_chainH. reflexivity. Qed.

(** The loop of both blockmix_salsa8 functions, indices normalised. *)
Fixpoint bm_loop (Hm : list N -> res (list N)) (fuel k r : nat) (Bin Bout X : list N)
  : res (list N * list N) :=
  if Nat.ltb k r then
    match fuel with
    | O => UB
    | S f =>
        X <- blkxor X 0 Bin (32 * k) 64 ;;
        X <- Hm X ;;
        Bout <- blkcpy Bout (16 * k) X 0 64 ;;
        X <- blkxor X 0 Bin (32 * k + 16) 64 ;;
        X <- Hm X ;;
        Bout <- blkcpy Bout (16 * (k + r)) X 0 64 ;;
        bm_loop Hm f (S k) r Bin Bout X
    end
  else Ok (Bout, X).
Lemma bind_ext {A B} (m : res A) (f g : A -> res B) : (forall a, f a = g a) -> bind m f = bind m g.
Proof. intros H. destruct m; simpl; auto. Qed.
Lemma blockmix_loop_norm f k r Bin Bout X :
  blockmix_loop f (2 * k) r Bin Bout X = bm_loop salsa20_8 f k r Bin Bout X.
Proof.
  revert k Bout X; induction f as [|f IH]; intros k Bout X; cbn [blockmix_loop bm_loop].
  - destruct (Nat.ltb_spec (2 * k) (2 * r)), (Nat.ltb_spec k r); try lia; reflexivity.
  - destruct (Nat.ltb_spec (2 * k) (2 * r)), (Nat.ltb_spec k r); try lia; [|reflexivity].
    replace (2 * k * 16)%nat with (32 * k)%nat by lia.
    replace (2 * k * 8 + r * 16)%nat with (16 * (k + r))%nat by lia.
    replace (2 * k * 8)%nat with (16 * k)%nat by lia.
    replace (2 * k + 2)%nat with (2 * S k)%nat by lia.
    repeat (apply bind_ext; intros ?). apply IH.
Qed.
Lemma blockmix_loop_sse2_norm f k r Bin Bout X :
  blockmix_loop_sse2 f k r Bin Bout X = bm_loop salsa20_8_sse2 f k r Bin Bout X.
Proof.
  revert k Bout X; induction f as [|f IH]; intros k Bout X; cbn [blockmix_loop_sse2 bm_loop]; auto.
  destruct (Nat.ltb_spec k r); auto.
  replace (4 * (k * 8))%nat with (32 * k)%nat by lia.
  replace (4 * (k * 8 + 4))%nat with (32 * k + 16)%nat by lia.
  replace (4 * (k * 4))%nat with (16 * k)%nat by lia.
  replace (4 * ((r + k) * 4))%nat with (16 * (k + r))%nat by lia.
  replace (k + 1)%nat with (S k) by lia.
  repeat (apply bind_ext; intros ?). apply IH.
Qed.

Definition len_is (n : nat) (l : list N) : Prop := length l = n.

Section AbstractCore.
  Context (Hm : list N -> res (list N)) (H : list N -> list N)
    (Hm_ok : forall x, length x = 16%nat -> Hm x = Ok (H x))
    (H_len : forall x, length x = 16%nat -> length (H x) = 16%nat).

  Lemma xor16 X pre b post o : length X = 16%nat -> length b = 16%nat -> o = length pre ->
    blkxor X 0 (pre ++ b ++ post) o 64 = Ok (xorl X b).
  Proof.
    intros HX Hb Ho. unfold blkxor. change (64 / 4)%nat with 16%nat.
    rewrite rd_at by auto. cbn [bind]. rewrite rd_all by auto. cbn [bind].
    apply wr_all. rewrite xorl_length. lia.
  Qed.
  Lemma bm_loop_ok n : forall k r pre bs E R1 O_ R2 X,
    length bs = (2 * n)%nat -> Forall (len_is 16) bs -> length pre = (32 * k)%nat ->
    length E = (16 * k)%nat -> length R1 = (16 * n)%nat -> length O_ = (16 * k)%nat ->
    length R2 = (16 * n)%nat -> r = (k + n)%nat -> length X = 16%nat ->
    exists X', length X' = 16%nat /\
    bm_loop Hm n k r (pre ++ concat bs) (E ++ R1 ++ O_ ++ R2) X =
      Ok (E ++ concat (evens (chainH H X bs)) ++ O_ ++ concat (odds (chainH H X bs)), X').
  Proof.
    induction n as [|n IH]; intros k r pre bs E R1 O_ R2 X Hbs Hall Hpre HE HR1 HO HR2 Hr HX.
    - destruct bs; [|discriminate]. destruct R1; [|discriminate]. destruct R2; [|discriminate].
      exists X. split; auto. subst r. cbn [bm_loop]. destruct (Nat.ltb_spec k (k + 0)); [lia|]. reflexivity.
    - destruct bs as [|b0 [|b1 bs]]; [discriminate|simpl in Hbs; lia|].
      inversion Hall as [|? ? Hb0 Hall1]; subst. inversion Hall1 as [|? ? Hb1 Hall2]; subst.
      unfold len_is in Hb0, Hb1.
      cbn [bm_loop]. destruct (Nat.ltb_spec k (k + S n)); [|lia].
      cbn [concat]. rewrite xor16 by auto. cbn [bind].
      rewrite Hm_ok by (rewrite xorl_length; lia). cbn [bind].
      set (Y0 := H (xorl X b0)).
      assert (length Y0 = 16%nat) as HY0 by (apply H_len; rewrite xorl_length; lia).
      rewrite <- (firstn_skipn 16 R1). rewrite <- app_assoc.
      unfold blkcpy. change (64 / 4)%nat with 16%nat. rewrite rd_all by auto. cbn [bind].
      rewrite wr_at; [|lia|rewrite firstn_length; lia]. cbn [bind].
      rewrite (app_assoc pre b0). rewrite xor16; [|auto|auto|rewrite app_length; lia]. cbn [bind].
      rewrite Hm_ok by (rewrite xorl_length; lia). cbn [bind].
      set (Y1 := H (xorl Y0 b1)).
      assert (length Y1 = 16%nat) as HY1 by (apply H_len; rewrite xorl_length; lia).
      rewrite rd_all by auto. cbn [bind].
      rewrite <- (firstn_skipn 16 R2).
      replace (E ++ Y0 ++ skipn 16 R1 ++ O_ ++ firstn 16 R2 ++ skipn 16 R2)
        with ((E ++ Y0 ++ skipn 16 R1 ++ O_) ++ firstn 16 R2 ++ skipn 16 R2)
        by (rewrite <- !app_assoc; reflexivity).
      rewrite wr_at; [|rewrite !app_length, skipn_length; lia|rewrite firstn_length; lia]. cbn [bind].
      replace ((E ++ Y0 ++ skipn 16 R1 ++ O_) ++ Y1 ++ skipn 16 R2)
        with ((E ++ Y0) ++ skipn 16 R1 ++ (O_ ++ Y1) ++ skipn 16 R2)
        by (rewrite <- !app_assoc; reflexivity).
      rewrite (app_assoc (pre ++ b0) b1).
      destruct (IH (S k) (k + S n)%nat ((pre ++ b0) ++ b1) bs (E ++ Y0) (skipn 16 R1) (O_ ++ Y1) (skipn 16 R2) Y1)
        as (X' & HX' & EQ); auto.
      + simpl in Hbs; lia.
      + rewrite !app_length. lia.
      + rewrite app_length; lia.
      + rewrite skipn_length; lia.
      + rewrite app_length; lia.
      + rewrite skipn_length; lia.
      + lia.
      + exists X'. split; auto. rewrite EQ.
        cbn [chainH evens odds concat]. fold Y0. fold Y1. rewrite <- !app_assoc. reflexivity.
  Qed.
End AbstractCore.

Lemma concat_chunks {A} n (l : list A) : (0 < n)%nat -> concat (chunks n l) = l.
Proof.
  intros Hn. unfold chunks. assert (forall f (l : list A), (length l <= f)%nat -> concat (chunks_fuel f n l) = l) as HH.
  { clear l. induction f as [|f IH]; intros l Hl.
    - destruct l; [reflexivity|simpl in Hl; lia].
    - destruct l as [|x l]; [reflexivity|].
      change (concat (chunks_fuel (S f) n (x :: l))) with
        (firstn n (x :: l) ++ concat (chunks_fuel f n (skipn n (x :: l)))).
      rewrite IH; [apply firstn_skipn|].
      rewrite skipn_length. cbn [length] in *. lia. }
  apply HH. lia.
Qed.
Lemma chunks_mult {A} n k (l : list A) : (0 < n)%nat -> length l = (n * k)%nat ->
  length (chunks n l) = k /\ Forall (fun b => length b = n) (chunks n l).
Proof.
  intros Hn. revert l; induction k as [|k IH]; intros l Hl.
  - destruct l; [|simpl in Hl; lia]. split; [reflexivity|constructor].
  - rewrite chunks_cons; auto; [|destruct l; [simpl in Hl; lia|discriminate]].
    destruct (IH (skipn n l)) as [I1 I2]; [rewrite skipn_length; lia|].
    split; [cbn [length]; lia|]. constructor; [rewrite firstn_length; lia|exact I2].
Qed.
Lemma last_app_ne {A} (l : list A) x d : last (l ++ [x]) d = x.
Proof. apply last_last. Qed.
Lemma concat_length_const {A} (ls : list (list A)) n : Forall (fun b => length b = n) ls ->
  length (concat ls) = (length ls * n)%nat.
Proof. induction 1 as [|b ls Hb _ IH]; auto. cbn [concat length]. rewrite app_length. lia. Qed.
Lemma last_chunk {A} n k (l : list A) : (0 < n)%nat -> length l = (n * S k)%nat ->
  last (chunks n l) [] = sub l (n * k) n.
Proof.
  intros Hn Hl. destruct (chunks_mult n (S k) l Hn Hl) as [HL HF].
  destruct (exists_last (l := chunks n l)) as (cs & c & E); [destruct (chunks n l); discriminate|].
  rewrite E, last_last.
  rewrite <- (concat_chunks n l Hn), E, concat_app. cbn [concat]. 
  rewrite E in HF, HL. apply Forall_app in HF. destruct HF as [F1 F2]. inversion F2 as [|? ? Hc _]; subst.
  rewrite app_length in HL. cbn [length] in HL.
  replace (length c * k)%nat with (length (concat cs)).
  - symmetry. apply sub_app_mid.
  - rewrite (concat_length_const cs (length c)) by exact F1. rewrite Nat.mul_comm. f_equal. lia.
Qed.

Section AbstractCore2.
  Context (Hm : list N -> res (list N)) (H : list N -> list N)
    (Hm_ok : forall x, length x = 16%nat -> Hm x = Ok (H x))
    (H_len : forall x, length x = 16%nat -> length (H x) = 16%nat).
  Lemma chainH_len X bs : length X = 16%nat -> Forall (fun b => length b = 16%nat) bs ->
    Forall (fun b => length b = 16%nat) (chainH H X bs) /\ length (chainH H X bs) = length bs.
  Proof using H_len.
    clear Hm Hm_ok.
    intros HX Hb. revert X HX. induction Hb as [|b bs Hb _ IH]; intros X HX; [split; [constructor|reflexivity]|].
    cbn [chainH]. assert (length (H (xorl X b)) = 16%nat) as HH by (apply H_len; rewrite xorl_length; lia).
    destruct (IH _ HH) as [I1 I2]. split; [constructor; auto|cbn [length]; lia].
  Qed.
  Lemma bm_correct r Bin Bout X : (0 < r)%nat -> length Bin = (32 * r)%nat -> length Bout = (32 * r)%nat ->
    length X = 16%nat ->
    exists X', length X' = 16%nat /\
      (X <- blkcpy X 0 Bin ((2 * r - 1) * 16) 64 ;; bm_loop Hm r 0 r Bin Bout X) = Ok (bmixH H 16 Bin, X').
  Proof.
    intros Hr HBin HBout HX.
    unfold blkcpy. change (64 / 4)%nat with 16%nat. rewrite rd_ok by lia. cbn [bind].
    rewrite wr_all by (rewrite sub_length; lia). cbn [bind].
    destruct (chunks_mult 16 (2 * r) Bin ltac:(lia) ltac:(lia)) as [C1 C2].
    assert (last (chunks 16 Bin) [] = sub Bin ((2 * r - 1) * 16) 16) as HL.
    { rewrite Nat.mul_comm. apply last_chunk; lia. }
    rewrite <- HL.
    destruct (bm_loop_ok Hm H Hm_ok H_len r 0 r [] (chunks 16 Bin) [] (firstn (16 * r) Bout) [] (skipn (16 * r) Bout)
      (last (chunks 16 Bin) [])) as (X' & HX' & EQ); auto.
    - rewrite firstn_length; lia.
    - rewrite skipn_length; lia.
    - rewrite HL, sub_length; lia.
    - cbn [app] in EQ. rewrite concat_chunks in EQ by lia. rewrite firstn_skipn in EQ.
      exists X'. split; auto. rewrite EQ. unfold bmixH. rewrite concat_app. reflexivity.
  Qed.
End AbstractCore2.

Lemma blockmix_salsa8_correct r Bin Bout X : (0 < r)%nat -> length Bin = (32 * r)%nat ->
  length Bout = (32 * r)%nat -> length X = 16%nat ->
  exists X', length X' = 16%nat /\ blockmix_salsa8 Bin Bout X r = Ok (bmixH salsa20_8_words 16 Bin, X').
Proof.
  intros Hr H1 H2 H3. unfold blockmix_salsa8.
  destruct (bm_correct salsa20_8 salsa20_8_words salsa20_8_correct salsa20_8_words_length r Bin Bout X Hr H1 H2 H3)
    as (X' & HX' & EQ).
  exists X'. split; auto. rewrite <- EQ. apply bind_ext. intros a. apply (blockmix_loop_norm r 0).
Qed.

(* ---------------- SSE2 core: permuted layout ---------------- *)
Lemma rot_xor x t n : t < 2 ^ 32 -> n < 32 ->
  N.lxor (N.lxor x (w32 (N.shiftl t n))) (N.shiftr t (32 - n)) = N.lxor x (rotl32 n t).
Proof.
  intros Ht Hn. rewrite N.lxor_assoc. f_equal. unfold rotl32.
  rewrite N_lt_pow2_testbit in Ht.
  apply N.bits_inj. intros i. rewrite N.lxor_spec, N.lor_spec.
  unfold w32. change 0xffffffff with (N.ones 32). rewrite N.land_spec, N.shiftr_spec by lia.
  destruct (N.lt_ge_cases i n) as [Hi|Hi].
  - rewrite N.shiftl_spec_low by exact Hi. rewrite andb_false_l, xorb_false_l. reflexivity.
  - rewrite (Ht (i + (32 - n))) by lia. rewrite xorb_false_r, orb_false_r. reflexivity.
Qed.
Definition qr' (T X : v4) (a : N) : v4 := vmap2 (fun x t => N.lxor x (rotl32 a t)) X T.
Lemma sse2_qr_spec A B X a b : a < 32 -> b = 32 - a ->
  sse2_qr (mm_add_epi32 A B) X a b = qr' (mm_add_epi32 A B) X a.
Proof.
  intros Ha ->. destruct A, B, X. unfold sse2_qr, qr', mm_add_epi32, mm_xor, mm_slli_epi32, mm_srli_epi32.
  cbn [vmap vmap2]. rewrite !rot_xor by (auto using add32_lt). reflexivity.
Qed.
Definition perm16 (x : list N) : list N := map (fun i => sel x (perm5 i)) (seq 0 16).
Definition unperm16 (y : list N) : list N := map (fun j => sel y (j * 13 mod 16)) (seq 0 16).
Lemma perm16_length x : length (perm16 x) = 16%nat. Proof. reflexivity. Qed.
Lemma unperm16_length x : length (unperm16 x) = 16%nat. Proof. reflexivity. Qed.
Lemma unperm_perm x : length x = 16%nat -> unperm16 (perm16 x) = x.
Proof. intros H. list16 x H. reflexivity. Qed.
Lemma perm_unperm x : length x = 16%nat -> perm16 (unperm16 x) = x.
Proof. intros H. list16 x H. reflexivity. Qed.

Definition vecs (y : list N) : v4 * v4 * v4 * v4 :=
  (V4 (sel y 0) (sel y 1) (sel y 2) (sel y 3), V4 (sel y 4) (sel y 5) (sel y 6) (sel y 7),
   V4 (sel y 8) (sel y 9) (sel y 10) (sel y 11), V4 (sel y 12) (sel y 13) (sel y 14) (sel y 15)).
Definition unvecs (s : v4 * v4 * v4 * v4) : list N :=
  let '(a, b, c, d) := s in vwords a ++ vwords b ++ vwords c ++ vwords d.
Lemma vecs_unvecs s : vecs (unvecs s) = s.
Proof. destruct s as [[[[] []] []] []]. reflexivity. Qed.
(** Four quarter rounds at once, one per lane. *)
Definition vqr (X0 X1 X2 X3 : v4) : v4 * v4 * v4 * v4 :=
  let X1 := qr' (mm_add_epi32 X0 X3) X1 7 in
  let X2 := qr' (mm_add_epi32 X1 X0) X2 9 in
  let X3 := qr' (mm_add_epi32 X2 X1) X3 13 in
  let X0 := qr' (mm_add_epi32 X3 X2) X0 18 in
  (X0, X1, X2, X3).
Lemma vqr_spec a0 a1 a2 a3 b0 b1 b2 b3 c0 c1 c2 c3 d0 d1 d2 d3
  a0' a1' a2' a3' b0' b1' b2' b3' c0' c1' c2' c3' d0' d1' d2' d3' :
  quarterround a0 b0 c0 d0 = (a0', b0', c0', d0') -> quarterround a1 b1 c1 d1 = (a1', b1', c1', d1') ->
  quarterround a2 b2 c2 d2 = (a2', b2', c2', d2') -> quarterround a3 b3 c3 d3 = (a3', b3', c3', d3') ->
  vqr (V4 a0 a1 a2 a3) (V4 b0 b1 b2 b3) (V4 c0 c1 c2 c3) (V4 d0 d1 d2 d3) =
  (V4 a0' a1' a2' a3', V4 b0' b1' b2' b3', V4 c0' c1' c2' c3', V4 d0' d1' d2' d3').
Proof.
  intros E0 E1 E2 E3. injection E0 as <- <- <- <-. injection E1 as <- <- <- <-.
  injection E2 as <- <- <- <-. injection E3 as <- <- <- <-. reflexivity.
Qed.
Definition sse2_body' (s : v4 * v4 * v4 * v4) : v4 * v4 * v4 * v4 :=
  let '(X0, X1, X2, X3) := s in
  let '(X0, X1, X2, X3) := vqr X0 X1 X2 X3 in
  let '(X0, X3, X2, X1) := vqr X0 (mm_shuffle_epi32 X3 0x39) (mm_shuffle_epi32 X2 0x4E) (mm_shuffle_epi32 X1 0x93) in
  (X0, mm_shuffle_epi32 X1 0x39, mm_shuffle_epi32 X2 0x4E, mm_shuffle_epi32 X3 0x93).
Lemma sse2_body_norm s : sse2_body s = sse2_body' s.
Proof.
  destruct s as [[[X0 X1] X2] X3]. unfold sse2_body, sse2_body', vqr. cbv zeta.
  rewrite !sse2_qr_spec by reflexivity. reflexivity.
Qed.
Lemma sse2_body_spec x : length x = 16%nat ->
  sse2_body (vecs (perm16 x)) = vecs (perm16 (doubleround x)).
Proof.
  intros H. rewrite sse2_body_norm. list16 x H.
  revert n n0 n1 n2 n3 n4 n5 n6 n7 n8 n9 n10 n11 n12 n13 n14 H.
  intros x0 x1 x2 x3 x4 x5 x6 x7 x8 x9 x10 x11 x12 x13 x14 x15 _.
  change (vecs (perm16 [x0; x1; x2; x3; x4; x5; x6; x7; x8; x9; x10; x11; x12; x13; x14; x15])) with
    (V4 x0 x5 x10 x15, V4 x4 x9 x14 x3, V4 x8 x13 x2 x7, V4 x12 x1 x6 x11).
  unfold sse2_body', doubleround, columnround.
  destruct (quarterround x0 x4 x8 x12) as [[[y0 y4] y8] y12] eqn:E0.
  destruct (quarterround x5 x9 x13 x1) as [[[y5 y9] y13] y1] eqn:E1.
  destruct (quarterround x10 x14 x2 x6) as [[[y10 y14] y2] y6] eqn:E2.
  destruct (quarterround x15 x3 x7 x11) as [[[y15 y3] y7] y11] eqn:E3.
  rewrite (vqr_spec _ _ _ _ _ _ _ _ _ _ _ _ _ _ _ _ _ _ _ _ _ _ _ _ _ _ _ _ _ _ _ _ E0 E1 E2 E3).
  change (mm_shuffle_epi32 (V4 y12 y1 y6 y11) 0x39) with (V4 y1 y6 y11 y12).
  change (mm_shuffle_epi32 (V4 y8 y13 y2 y7) 0x4E) with (V4 y2 y7 y8 y13).
  change (mm_shuffle_epi32 (V4 y4 y9 y14 y3) 0x93) with (V4 y3 y4 y9 y14).
  unfold rowround.
  destruct (quarterround y0 y1 y2 y3) as [[[z0 z1] z2] z3] eqn:F0.
  destruct (quarterround y5 y6 y7 y4) as [[[z5 z6] z7] z4] eqn:F1.
  destruct (quarterround y10 y11 y8 y9) as [[[z10 z11] z8] z9] eqn:F2.
  destruct (quarterround y15 y12 y13 y14) as [[[z15 z12] z13] z14] eqn:F3.
  rewrite (vqr_spec _ _ _ _ _ _ _ _ _ _ _ _ _ _ _ _ _ _ _ _ _ _ _ _ _ _ _ _ _ _ _ _ F0 F1 F2 F3).
  reflexivity.
Qed.
Lemma sse2_loop x : length x = 16%nat ->
  loop2 4 0 8 sse2_body (vecs (perm16 x)) = Ok (vecs (perm16 (Nat.iter 4 doubleround x))).
Proof.
  intros H. cbn [loop2].
  change (0 <? 8) with true. cbv iota. change (0 + 2) with 2.
  change (2 <? 8) with true. cbv iota. change (2 + 2) with 4.
  change (4 <? 8) with true. cbv iota. change (4 + 2) with 6.
  change (6 <? 8) with true. cbv iota. change (6 + 2) with 8.
  change (8 <? 8) with false. cbv iota. f_equal.
  rewrite (sse2_body_spec x) by exact H.
  rewrite (sse2_body_spec (doubleround x)) by (apply doubleround_length; exact H).
  rewrite (sse2_body_spec (doubleround (doubleround x))) by (do 2 apply doubleround_length; exact H).
  rewrite sse2_body_spec by (do 3 apply doubleround_length; exact H).
  unfold Nat.iter, nat_rect. reflexivity.
Qed.
Lemma salsa20_8_sse2_perm x : length x = 16%nat ->
  salsa20_8_sse2 (perm16 x) = Ok (perm16 (salsa20_8_words x)).
Proof.
  intros H. unfold salsa20_8_sse2.
  change (vload32 (perm16 x) 0) with (Ok (fst (fst (fst (vecs (perm16 x)))))).
  change (vload32 (perm16 x) 4) with (Ok (snd (fst (fst (vecs (perm16 x)))))).
  change (vload32 (perm16 x) 8) with (Ok (snd (fst (vecs (perm16 x))))).
  change (vload32 (perm16 x) 12) with (Ok (snd (vecs (perm16 x)))).
  cbn [bind].
  replace (fst (fst (fst (vecs (perm16 x)))), snd (fst (fst (vecs (perm16 x)))),
     snd (fst (vecs (perm16 x))), snd (vecs (perm16 x))) with (vecs (perm16 x)) by reflexivity.
  rewrite sse2_loop by exact H. unfold salsa20_8_words.
  pose proof (iter_doubleround_length 4 x H) as H4. revert H4.
  generalize (Nat.iter 4 doubleround x). intros z Hz. list16 x H. list16 z Hz. reflexivity.
Qed.
Definition salsa_sse2_pure (y : list N) : list N := perm16 (salsa20_8_words (unperm16 y)).
Lemma salsa20_8_sse2_correct y : length y = 16%nat -> salsa20_8_sse2 y = Ok (salsa_sse2_pure y).
Proof.
  intros H. unfold salsa_sse2_pure. rewrite <- salsa20_8_sse2_perm by apply unperm16_length.
  rewrite perm_unperm by exact H. reflexivity.
Qed.
Lemma blockmix_sse2_correct r Bin Bout X : (0 < r)%nat -> length Bin = (32 * r)%nat ->
  length Bout = (32 * r)%nat -> length X = 16%nat ->
  exists X', length X' = 16%nat /\ blockmix_salsa8_sse2 Bin Bout X r = Ok (bmixH salsa_sse2_pure 16 Bin, X').
Proof.
  intros Hr H1 H2 H3. unfold blockmix_salsa8_sse2.
  destruct (bm_correct salsa20_8_sse2 salsa_sse2_pure salsa20_8_sse2_correct (fun x _ => perm16_length _) r Bin Bout X Hr H1 H2 H3)
    as (X' & HX' & EQ).
  exists X'. split; auto. rewrite <- EQ.
  replace (4 * (8 * r - 4))%nat with ((2 * r - 1) * 16)%nat by lia.
  apply bind_ext. intros a. apply blockmix_loop_sse2_norm.
Qed.

(* ---------------- transporting block mixing along a block map ---------------- *)
Lemma chunks_concat {A} n (ls : list (list A)) : (0 < n)%nat -> Forall (fun b => length b = n) ls ->
  chunks n (concat ls) = ls.
Proof.
  intros Hn. induction 1 as [|b ls Hb _ IH]; [reflexivity|].
  cbn [concat]. rewrite chunks_app_block by auto. rewrite IH. reflexivity.
Qed.
Lemma last_map (f : list N -> list N) (bs : list (list N)) : bs <> [] -> last (map f bs) [] = f (last bs []).
Proof.
  intros Hne. destruct (exists_last Hne) as (l & x & ->). rewrite map_app. cbn [map]. rewrite !last_last. reflexivity.
Qed.
Lemma Forall_last (P : list N -> Prop) bs : bs <> [] -> Forall P bs -> P (last bs []).
Proof.
  intros Hne HF. destruct (exists_last Hne) as (l & x & ->). rewrite last_last. apply Forall_app in HF.
  destruct HF as [_ HF]. inversion HF; auto.
Qed.
Lemma evens_map (f : list N -> list N) (l : list (list N)) : evens (map f l) = map f (evens l) /\ odds (map f l) = map f (odds l).
Proof.
  assert (forall n l, (length l <= n)%nat -> evens (map f l) = map f (evens l) /\ odds (map f l) = map f (odds l)) as HH.
  { induction n as [|n IH]; intros [|a [|b l']] Hl; cbn [length] in Hl; try (split; reflexivity); try lia.
    destruct (IH l') as [I1 I2]; [lia|]. cbn [map evens odds]. rewrite I1, I2. split; reflexivity. }
  eapply HH, le_n.
Qed.
Lemma Forall_evens (P : list N -> Prop) l : Forall P l -> Forall P (evens l) /\ Forall P (odds l).
Proof.
  assert (forall n l, (length l <= n)%nat -> Forall P l -> Forall P (evens l) /\ Forall P (odds l)) as HH.
  { clear l. induction n as [|n IH]; intros [|a [|b l']] Hl HF; cbn [length] in Hl; try lia;
      cbn [evens odds]; try (split; auto; fail).
    inversion HF as [|? ? Ha HF1]; subst. inversion HF1 as [|? ? Hb HF2]; subst.
    destruct (IH l') as [I1 I2]; [lia|auto|]. split; constructor; auto. }
  eapply HH, le_n.
Qed.

Section Transport.
  (** [f] maps 'm'-blocks to [m']-blocks and commutes with xor and the core. *)
  Context (m m' : nat) (f : list N -> list N) (H H' : list N -> list N) (good : list N -> Prop)
    (Hm : (0 < m)%nat) (Hm' : (0 < m')%nat)
    (f_len : forall x, length x = m -> length (f x) = m')
    (f_xor : forall a b, length a = m -> good a -> length b = m -> good b -> f (xorl a b) = xorl (f a) (f b))
    (g_xor : forall a b, length a = m -> good a -> length b = m -> good b -> good (xorl a b))
    (g_H : forall x, length x = m -> good x -> good (H x))
    (H_len : forall x, length x = m -> length (H x) = m)
    (f_H : forall x, length x = m -> good x -> f (H x) = H' (f x)).
  Definition gblk (b : list N) : Prop := length b = m /\ good b.
  Lemma chain_transport X bs : gblk X -> Forall gblk bs ->
    chainH H' (f X) (map f bs) = map f (chainH H X bs) /\ Forall gblk (chainH H X bs).
  Proof.
    intros HX Hbs. revert X HX. induction Hbs as [|b bs [Hb Gb] _ IH]; intros X [HX GX]; [split; [reflexivity|constructor]|].
    cbn [map chainH].
    assert (length (xorl X b) = m) as HL by (rewrite xorl_length; lia).
    assert (good (xorl X b)) as HG by auto.
    rewrite <- f_xor, <- f_H by auto.
    destruct (IH (H (xorl X b))) as [I1 I2]; [split; auto|].
    rewrite I1. split; auto. constructor; auto. split; auto.
  Qed.
  (** [f] block by block. *)
  Definition fB (B : list N) : list N := concat (map f (chunks m B)).
  Definition goodB (B : list N) : Prop := Forall gblk (chunks m B).
  Lemma gblk_len bs : Forall gblk bs -> Forall (fun b => length b = m) bs.
  Proof. apply Forall_impl. intros a [? ?]; auto. Qed.
  Lemma fB_chunks B : goodB B -> chunks m' (fB B) = map f (chunks m B).
  Proof.
    intros HB. apply chunks_concat; auto. apply Forall_map. eapply Forall_impl; [|exact HB].
    intros a [? ?]. auto.
  Qed.
  Lemma fB_concat bs : Forall gblk bs -> fB (concat bs) = concat (map f bs).
  Proof. intros HB. unfold fB. rewrite chunks_concat; auto. apply gblk_len, HB. Qed.
  Lemma goodB_concat bs : Forall gblk bs -> goodB (concat bs).
  Proof. intros HB. unfold goodB. rewrite chunks_concat; auto. apply gblk_len, HB. Qed.
  Lemma bmix_transport B : B <> [] -> goodB B ->
    bmixH H' m' (fB B) = fB (bmixH H m B) /\ goodB (bmixH H m B).
  Proof.
    intros Hne HB. unfold bmixH. cbv zeta. rewrite fB_chunks by exact HB.
    assert (chunks m B <> []) as Hc by (rewrite chunks_cons; auto; discriminate).
    rewrite last_map by exact Hc.
    destruct (chain_transport (last (chunks m B) []) (chunks m B)) as [T1 T2];
      [apply Forall_last; auto|exact HB|].
    rewrite T1. destruct (evens_map f (chainH H (last (chunks m B) []) (chunks m B))) as [-> ->].
    rewrite <- map_app. destruct (Forall_evens _ _ T2) as [F1 F2].
    assert (Forall gblk (evens (chainH H (last (chunks m B) []) (chunks m B)) ++ odds (chainH H (last (chunks m B) []) (chunks m B)))) as F
      by (apply Forall_app; auto).
    rewrite fB_concat by exact F. split; auto. apply goodB_concat. exact F.
  Qed.
End Transport.

(* ---------------- the smix loops ---------------- *)
(** ROMix over an abstract block mixer and integerifier. *)
Definition romixV (bm : list N -> list N) (B : list N) (j : N) : list N := N.iter j bm B.
Definition romixStep (bm : list N -> list N) (ig : list N -> N) (N_ : N) (B X : list N) : list N :=
  bm (xorl X (romixV bm B (ig X mod N_))).
Definition romixH (bm : list N -> list N) (ig : list N -> N) (N_ : N) (B : list N) : list N :=
  N.iter N_ (romixStep bm ig N_ B) (romixV bm B N_).

Lemma niter_succ {A} n (f : A -> A) x : N.iter (n + 1) f x = f (N.iter n f x).
Proof. rewrite N.add_1_r. apply N.iter_succ. Qed.

Lemma pow2_land j k : k <= 64 -> N.land j (w64 (2 ^ 64 + 2 ^ k - 1)) = j mod 2 ^ k.
Proof.
  intros Hk. rewrite w64_mod.
  assert (0 < 2 ^ k) by (apply N.neq_0_lt_0, N.pow_nonzero; lia).
  assert (2 ^ k <= 2 ^ 64) by (apply N.pow_le_mono_r; lia).
  replace (2 ^ 64 + 2 ^ k - 1) with ((2 ^ k - 1) + 1 * 2 ^ 64) by lia.
  rewrite N.mod_add by lia. rewrite N.mod_small by lia.
  rewrite <- N.pred_sub, <- N.ones_equiv. apply N.land_ones.
Qed.

Section Smix.
  Context (bmix : list N -> list N -> list N -> nat -> res (list N * list N))
          (intg : list N -> nat -> res N) (bm : list N -> list N) (ig : list N -> N) (r : nat)
    (bmix_ok : forall X Y Z, length X = (32 * r)%nat -> length Y = (32 * r)%nat -> length Z = 16%nat ->
       exists Z', length Z' = 16%nat /\ bmix X Y Z r = Ok (bm X, Z'))
    (bm_len : forall X, length X = (32 * r)%nat -> length (bm X) = (32 * r)%nat)
    (ig_ok : forall X, length X = (32 * r)%nat -> intg X r = Ok (ig X)).

  Lemma iter_len n B : length B = (32 * r)%nat -> length (N.iter n bm B) = (32 * r)%nat.
  Proof.
    intros HB. rewrite N2Nat.inj_iter. induction (N.to_nat n) as [|k IH]; auto. apply bm_len, IH.
  Qed.
  Lemma div4 : (128 * r / 4 = 32 * r)%nat.
  Proof. replace (128 * r)%nat with (32 * r * 4)%nat by lia. apply Nat.div_mul. lia. Qed.

  Lemma smix_fill_ok n : forall fuel i N_ V X Y Z B,
    (n <= fuel)%nat -> i + 2 * N.of_nat n = N_ -> N_ < 2 ^ 64 ->
    length V = (N.to_nat N_ * (32 * r))%nat -> length B = (32 * r)%nat ->
    X = N.iter i bm B -> length Y = (32 * r)%nat -> length Z = 16%nat ->
    (forall j, j < i -> sub V (N.to_nat j * (32 * r)) (32 * r) = N.iter j bm B) ->
    exists V' Y' Z', smix_fill bmix fuel i N_ r V X Y Z = Ok (V', N.iter N_ bm B, Y', Z') /\
      length V' = length V /\ length Y' = (32 * r)%nat /\ length Z' = 16%nat /\
      (forall j, j < N_ -> sub V' (N.to_nat j * (32 * r)) (32 * r) = N.iter j bm B).
  Proof.
    induction n as [|n IH]; intros fuel i N_ V X Y Z B Hf HN HN64 HV HB HX HY HZ HVj.
    - assert (i = N_) as -> by lia. exists V, Y, Z.
      assert (N_ <? N_ = false) as E by (apply N.ltb_irrefl).
      destruct fuel; cbn [smix_fill]; rewrite E; subst X; auto 6.
    - destruct fuel as [|fuel]; [lia|]. cbn [smix_fill].
      destruct (N.ltb_spec i N_) as [_|]; [|lia].
      assert (length X = (32 * r)%nat) as HXl by (subst X; apply iter_len; auto).
      unfold blkcpy. rewrite div4. rewrite rd_all by auto. cbn [bind].
      rewrite wr_ok by nia. cbn [bind].
      destruct (bmix_ok X Y Z HXl HY HZ) as (Z1 & HZ1 & ->). cbn [bind].
      rewrite (w64_small (i + 1)) by lia.
      rewrite rd_all by (rewrite bm_len; auto). cbn [bind].
      assert (length (upd V (N.to_nat i * (32 * r)) X) = length V) as HV1 by (apply upd_length; nia).
      rewrite wr_ok by (rewrite bm_len, HV1 by auto; nia). cbn [bind].
      destruct (bmix_ok (bm X) X Z1 (bm_len _ HXl) HXl HZ1) as (Z2 & HZ2 & ->). cbn [bind].
      rewrite (w64_small (i + 2)) by lia.
      assert (length (upd (upd V (N.to_nat i * (32 * r)) X) (N.to_nat (i + 1) * (32 * r)) (bm X)) = length V) as HV2
        by (rewrite upd_length; auto; rewrite bm_len, HV1 by auto; nia).
      edestruct (IH fuel (i + 2) N_ (upd (upd V (N.to_nat i * (32 * r)) X) (N.to_nat (i + 1) * (32 * r)) (bm X))
        (bm (bm X)) (bm X) Z2 B) as (V' & Y' & Z' & E & L1 & L2 & L3 & L4); try lia; auto.
      + subst X. replace (i + 2) with (i + 1 + 1) by lia. rewrite !niter_succ. reflexivity.
      + intros j Hj. destruct (N.eq_dec j (i + 1)) as [->|Hj1].
        * rewrite sub_upd_same by (rewrite ?HV1, ?bm_len by auto; nia).
          rewrite niter_succ. subst X. reflexivity.
        * rewrite sub_upd_before by (rewrite ?HV1, ?bm_len by auto; nia).
          destruct (N.eq_dec j i) as [->|Hj2].
          -- rewrite sub_upd_same by nia. exact HX.
          -- rewrite sub_upd_before by nia. apply HVj. lia.
      + exists V', Y', Z'. split; [exact E|]. split; [lia|]. auto.
  Qed.

  Lemma xor_V X V o : length X = (32 * r)%nat -> (o + 32 * r <= length V)%nat ->
    blkxor X 0 V o (128 * r) = Ok (xorl X (sub V o (32 * r))).
  Proof.
    intros HX HV. unfold blkxor. rewrite div4. rewrite rd_ok by exact HV. cbn [bind].
    rewrite rd_all by auto. cbn [bind]. apply wr_all. rewrite xorl_length, sub_length; lia.
  Qed.

  Lemma smix_mix_ok n lg : forall fuel i N_ V X Y Z B,
    N_ = 2 ^ lg -> lg < 64 ->
    (n <= fuel)%nat -> i + 2 * N.of_nat n = N_ ->
    length V = (N.to_nat N_ * (32 * r))%nat -> length X = (32 * r)%nat -> length B = (32 * r)%nat ->
    length Y = (32 * r)%nat -> length Z = 16%nat ->
    (forall j, j < N_ -> sub V (N.to_nat j * (32 * r)) (32 * r) = N.iter j bm B) ->
    exists Y' Z', smix_mix bmix intg fuel i N_ r V X Y Z =
        Ok (N.iter (N_ - i) (romixStep bm ig N_ B) X, Y', Z') /\
      length Y' = (32 * r)%nat /\ length Z' = 16%nat.
  Proof.
    assert (forall N_ B X, length X = (32 * r)%nat -> length B = (32 * r)%nat -> length (romixStep bm ig N_ B X) = (32 * r)%nat) as Lstep.
    { intros. unfold romixStep. apply bm_len. rewrite xorl_length. unfold romixV. rewrite iter_len; auto. lia. }
    induction n as [|n IH]; intros fuel i N_ V X Y Z B HN2 Hlg Hf HN HV HX HB HY HZ HVj.
    - assert (i = N_) as -> by lia. exists Y, Z. rewrite N.sub_diag.
      assert (N_ <? N_ = false) as E by (apply N.ltb_irrefl).
      destruct fuel; cbn [smix_mix]; rewrite E; auto.
    - destruct fuel as [|fuel]; [lia|]. cbn [smix_mix].
      destruct (N.ltb_spec i N_) as [_|]; [|lia].
      assert (0 < N_) as HNp by lia.
      assert (N_ < 2 ^ 64) as HN64 by (subst N_; apply N.pow_lt_mono_r; lia).
      assert (forall j, N.land j (w64 (2 ^ 64 + N_ - 1)) = j mod N_) as HA
        by (intros; subst N_; apply pow2_land; lia).
      assert (forall j, j mod N_ < N_) as HM by (intros; apply N.mod_lt; lia).
      rewrite ig_ok by auto. cbn [bind]. rewrite HA.
      rewrite xor_V by (auto; specialize (HM (ig X)); nia). cbn [bind]. rewrite HVj by apply HM.
      assert (length (xorl X (N.iter (ig X mod N_) bm B)) = (32 * r)%nat) as L1
        by (rewrite xorl_length, iter_len; auto; lia).
      destruct (bmix_ok (xorl X (N.iter (ig X mod N_) bm B)) Y Z L1 HY HZ) as (Z1 & HZ1 & ->). cbn [bind].
      change (bm (xorl X (N.iter (ig X mod N_) bm B))) with (romixStep bm ig N_ B X).
      set (X1 := romixStep bm ig N_ B X).
      assert (length X1 = (32 * r)%nat) as LX1 by (apply Lstep; auto).
      rewrite ig_ok by auto. cbn [bind]. rewrite HA.
      rewrite xor_V by (auto; specialize (HM (ig X1)); nia). cbn [bind]. rewrite HVj by apply HM.
      assert (length (xorl X1 (N.iter (ig X1 mod N_) bm B)) = (32 * r)%nat) as L2
        by (rewrite xorl_length, iter_len; auto; lia).
      destruct (bmix_ok (xorl X1 (N.iter (ig X1 mod N_) bm B)) (xorl X (N.iter (ig X mod N_) bm B)) Z1 L2 L1 HZ1)
        as (Z2 & HZ2 & ->). cbn [bind].
      change (bm (xorl X1 (N.iter (ig X1 mod N_) bm B))) with (romixStep bm ig N_ B X1).
      rewrite (w64_small (i + 2)) by lia.
      edestruct (IH fuel (i + 2) N_ V (romixStep bm ig N_ B X1) (xorl X1 (N.iter (ig X1 mod N_) bm B)) Z2 B)
        as (Y' & Z' & E & E1 & E2); try lia; auto.
      exists Y', Z'. split; auto. rewrite E. f_equal. f_equal. f_equal.
      replace (N_ - i) with (N_ - (i + 2) + 1 + 1) by lia.
      assert (forall k x, N.iter (k + 1) (romixStep bm ig N_ B) x = N.iter k (romixStep bm ig N_ B) (romixStep bm ig N_ B x)) as IR.
      { intros k x. rewrite N.add_1_r. apply N.iter_succ_r. }
      rewrite !IR. reflexivity.
  Qed.
End Smix.

(* ---------------- loading and storing words ---------------- *)
Lemma load_words_ok n : forall pre B k X R,
  length B = (4 * n)%nat -> length R = n -> bytes_ok B -> length pre = (4 * k)%nat -> length X = k ->
  load_words n k (pre ++ B) (X ++ R) = Ok (X ++ le_words B).
Proof.
  induction n as [|n IH]; intros pre B k X R HB HR Hok Hpre HX.
  - destruct B; [|discriminate]. destruct R; [|discriminate]. reflexivity.
  - cbn [load_words]. rewrite <- (firstn_skipn 4 B).
    assert (length (firstn 4 B) = 4%nat) as H4 by (rewrite firstn_length; lia).
    rewrite rd_at by lia. cbn [bind].
    destruct R as [|x R]; [discriminate|].
    change (x :: R) with ([x] ++ R). rewrite wr_at by auto. cbn [bind].
    rewrite app_assoc, (app_assoc X). rewrite (IH (pre ++ firstn 4 B)).
    + rewrite <- app_assoc. f_equal. f_equal. unfold le_words.
      rewrite chunks_app_block by (auto; lia). cbn [map app]. rewrite le32dec_spec; auto.
      apply Forall_firstn. exact Hok.
    + rewrite skipn_length; lia.
    + simpl in HR; lia.
    + apply Forall_skipn; exact Hok.
    + rewrite app_length; lia.
    + rewrite app_length; simpl; lia.
Qed.
Lemma store_words_ok n : forall preX X preB B k,
  length X = n -> length B = (4 * n)%nat -> length preX = k -> length preB = (4 * k)%nat ->
  store_words n k (preX ++ X) (preB ++ B) = Ok (preB ++ le_unwords X).
Proof.
  induction n as [|n IH]; intros preX X preB B k HX HB Hp1 Hp2.
  - destruct X; [|discriminate]. destruct B; [|discriminate]. reflexivity.
  - destruct X as [|x X]; [discriminate|]. cbn [store_words].
    change (x :: X) with ([x] ++ X). rewrite rd_at by auto. cbn [bind].
    rewrite <- (firstn_skipn 4 B).
    change (sel [x] 0) with x. rewrite le32enc_spec.
    rewrite wr_at; [|lia|rewrite firstn_length, le_bytes_length; lia]. cbn [bind].
    rewrite app_assoc, (app_assoc preB). rewrite (IH (preX ++ [x])).
    + rewrite <- app_assoc. reflexivity.
    + simpl in HX; lia.
    + rewrite skipn_length; lia.
    + rewrite app_length; simpl; lia.
    + rewrite app_length, le_bytes_length; lia.
Qed.
Lemma le_words_unwords ws : words_ok ws -> le_words (le_unwords ws) = ws.
Proof.
  induction 1 as [|w ws Hw _ IH]; [reflexivity|].
  unfold le_words, le_unwords in *. cbn [flat_map].
  rewrite chunks_app_block by (rewrite ?le_bytes_length; lia). cbn [map]. rewrite IH. f_equal.
  rewrite le_val_le_bytes. apply N.mod_small. exact Hw.
Qed.
Lemma le_unwords_words b : bytes_ok b -> (length b mod 4 = 0)%nat -> le_unwords (le_words b) = b.
Proof.
  intros Hb Hl. revert Hb. pattern b. apply (blocks_ind 4); [lia|reflexivity| |exact Hl].
  intros x l Hx _ IH Hok. apply bytes_ok_app in Hok. destruct Hok as [O1 O2].
  unfold le_words, le_unwords in *. rewrite chunks_app_block by lia. cbn [map flat_map].
  rewrite IH by exact O2. rewrite le_bytes_le_val4 by auto. reflexivity.
Qed.
Lemma le_words_length b : (length b mod 4 = 0)%nat -> length (le_words b) = (length b / 4)%nat.
Proof.
  intros H. unfold le_words. rewrite map_length.
  apply (chunks_mult 4 (length b / 4) b); [lia|]. apply Nat.div_exact; lia.
Qed.
Lemma le_words_ok b : bytes_ok b -> words_ok (le_words b).
Proof.
  intros Hb. unfold le_words, words_ok. apply Forall_map.
  assert (forall f l, bytes_ok l -> Forall (fun x => le_val x < 2 ^ 32) (chunks_fuel f 4 l)) as HH.
  { clear. induction f as [|f IH]; intros l Hl; [constructor|].
    destruct l as [|x l]; [constructor|].
    cbn [chunks_fuel]. constructor; [|apply IH, Forall_skipn, Hl].
    eapply N.lt_le_trans; [apply le_val_bound; apply Forall_firstn; exact Hl|].
    change (2 ^ 32) with (256 ^ 4). apply N.pow_le_mono_r; [lia|].
    rewrite firstn_length. lia. }
  apply HH, Hb.
Qed.
Lemma le_unwords_length ws : length (le_unwords ws) = (4 * length ws)%nat.
Proof. induction ws as [|w ws IH]; auto. unfold le_unwords in *. cbn [flat_map length]. rewrite app_length, le_bytes_length, IH. lia. Qed.
Lemma le_unwords_ok ws : bytes_ok (le_unwords ws).
Proof. induction ws as [|w ws IH]; [constructor|]. unfold le_unwords in *. cbn [flat_map]. apply bytes_ok_app. split; auto. apply le_bytes_ok. Qed.
Lemma le_unwords_app a b : le_unwords (a ++ b) = le_unwords a ++ le_unwords b.
Proof. apply flat_map_app. Qed.
