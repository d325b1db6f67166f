(** The reference implementation computes scrypt. *)
From Verif Require Import Base SpecBytes SpecSHA SpecScrypt SpecScryptAPI M_endian P_endian M_sha256_tr M_simd
  M_sha256_hw M_sha256 P_sha256_tr P_sha256_hw P_sha256 M_smix P_salsa P_smix P_smix2 P_smix_sse2 P_scrypt.

Lemma Salsa20_8_facts X : length X = 64%nat -> bytes_ok X ->
  length (Salsa20_8 X) = 64%nat /\ bytes_ok (Salsa20_8 X).
Proof.
  intros HX Hok. unfold Salsa20_8. split; [|apply le_unwords_ok].
  rewrite le_unwords_length, salsa20_8_words_length; auto.
  rewrite le_words_length; rewrite HX; reflexivity.
Qed.
Lemma load_words_0 n B X : length B = (4 * n)%nat -> length X = n -> bytes_ok B ->
  load_words n 0 B X = Ok (le_words B).
Proof. intros H1 H2 H3. exact (load_words_ok n [] B 0 [] X H1 H2 H3 eq_refl eq_refl). Qed.
Lemma store_words_0 n X B : length X = n -> length B = (4 * n)%nat ->
  store_words n 0 X B = Ok (le_unwords X).
Proof. intros H1 H2. exact (store_words_ok n [] X [] B 0 H1 H2 eq_refl eq_refl). Qed.
Lemma bind_Ok {A B} (a : A) (k : A -> res B) : bind (Ok a) k = k a.
Proof. reflexivity. Qed.
Lemma salsa_words_eq x : map2 add32 x (Nat.iter 4 doubleround x) = salsa20_8_words x.
Proof. reflexivity. Qed.
Lemma le_words_64 X : length X = 64%nat -> length (le_words X) = 16%nat.
Proof. intros HX. rewrite le_words_length; rewrite HX; reflexivity. Qed.
Lemma salsa20_8_ref_correct X : length X = 64%nat -> bytes_ok X -> salsa20_8_ref X = Ok (Salsa20_8 X).
Proof.
  intros HX Hok. unfold salsa20_8_ref.
  rewrite (load_words_0 16 X (repeat 0 16) HX (repeat_length 0 16) Hok). rewrite bind_Ok.
  pose proof (le_words_64 X HX) as HW. unfold Salsa20_8. revert HW. generalize (le_words X). intros w HW.
  rewrite salsa_loop by exact HW. rewrite bind_Ok.
  rewrite add_words_spec; [|exact HW|apply iter_doubleround_length; exact HW].
  rewrite salsa_words_eq.
  apply (store_words_0 16); [apply salsa20_8_words_length; exact HW|exact HX].
Qed.

Definition blk64 := blocks_good 64.
Lemma xorl_blk a b : length a = 64%nat -> bytes_ok a -> length b = 64%nat -> bytes_ok b ->
  length (xorl a b) = 64%nat /\ bytes_ok (xorl a b).
Proof.
  intros. split; [rewrite xorl_length; lia|]. apply bytes_ok_xorl; auto.
Qed.

Lemma chain_blk X Bs : length X = 64%nat -> bytes_ok X -> blk64 Bs -> blk64 (chainH Salsa20_8 X Bs) /\
  length (chainH Salsa20_8 X Bs) = length Bs.
Proof.
  intros HX HO HB. revert X HX HO. induction HB as [|b bs [Hb Ob] _ IH]; intros X HX HO; [split; [constructor|reflexivity]|].
  cbn [chainH length]. destruct (xorl_blk X b HX HO Hb Ob) as [L O]. destruct (Salsa20_8_facts _ L O) as [L2 O2].
  destruct (IH _ L2 O2) as [I1 I2]. split; [constructor; auto|]. rewrite I2. reflexivity.
Qed.

Lemma ref_loop_ok : forall post pre Yd Yr X, blk64 (pre ++ post) -> blk64 (Yd ++ Yr) ->
  length Yd = length pre -> length Yr = length post -> length X = 64%nat -> bytes_ok X ->
  blockmix_ref_loop (length post) (length pre) (concat (pre ++ post)) (concat (Yd ++ Yr)) X =
    Ok (concat (Yd ++ chainH Salsa20_8 X post)).
Proof.
  induction post as [|b post IH]; intros pre Yd Yr X HB HY L1 L2 HX HO.
  - destruct Yr; [|discriminate]. reflexivity.
  - destruct Yr as [|y Yr]; [discriminate|]. cbn [length blockmix_ref_loop chainH].
    pose proof HB as HB'. apply Forall_app in HB'. destruct HB' as [_ HB'].
    inversion HB' as [|? ? [Lb Ob] _]; subst. clear HB'.
    unfold blkxor8, blkcpy8.
    rewrite (blk_rd _ 64 (length pre) []); [|apply blocks_good_len; exact HB|rewrite app_length; simpl; lia]. cbn [bind].
    rewrite app_nth2, Nat.sub_diag by lia. cbn [nth].
    rewrite rd_all by lia. cbn [bind].
    destruct (xorl_blk X b HX HO Lb Ob) as [L O].
    rewrite wr_all by lia. cbn [bind]. rewrite salsa20_8_ref_correct by auto. cbn [bind].
    destruct (Salsa20_8_facts _ L O) as [L3 O3].
    rewrite rd_all by lia. cbn [bind].
    rewrite blk_wr; [|apply blocks_good_len; exact HY|rewrite app_length; simpl; lia|exact L3]. cbn [bind].
    rewrite <- L1. rewrite set_nth_app.
    set (X' := Salsa20_8 (xorl X b)) in *.
    replace (pre ++ b :: post) with ((pre ++ [b]) ++ post) by (rewrite <- app_assoc; reflexivity).
    replace (Yd ++ X' :: Yr) with ((Yd ++ [X']) ++ Yr) by (rewrite <- app_assoc; reflexivity).
    replace (S (length Yd)) with (length (pre ++ [b])) by (rewrite app_length; simpl; lia).
    rewrite IH; auto.
    + rewrite <- app_assoc. reflexivity.
    + rewrite <- app_assoc. exact HB.
    + apply Forall_app in HY. destruct HY as [Y1 Y2]. inversion Y2; subst.
      rewrite <- app_assoc. apply Forall_app. split; [exact Y1|]. constructor; auto.
    + rewrite !app_length. simpl. lia.
Qed.

Lemma nth_evens {A} (l : list A) d : forall i, nth i (evens l) d = nth (i * 2) l d /\ nth i (odds l) d = nth (i * 2 + 1) l d.
Proof.
  assert (forall n (l : list A), (length l <= n)%nat -> forall i,
    nth i (evens l) d = nth (i * 2) l d /\ nth i (odds l) d = nth (i * 2 + 1) l d) as HH.
  { clear l. induction n as [|n IH]; intros [|a [|b l]] Hl i; cbn [length] in Hl; try lia; cbn [evens odds].
    - destruct i; split; reflexivity.
    - destruct i; split; reflexivity.
    - destruct i as [|[|i]]; split; try reflexivity.
    - destruct i as [|i]; [split; reflexivity|]. cbn [nth Nat.mul]. destruct (IH l ltac:(lia) i) as [-> ->].
      split; reflexivity. }
  eapply HH, le_n.
Qed.
Lemma evens_odds_len {A} r (l : list A) : length l = (2 * r)%nat -> length (evens l) = r /\ length (odds l) = r.
Proof.
  revert l; induction r as [|r IH]; intros l H.
  - destruct l; [split; reflexivity|discriminate].
  - destruct l as [|a [|b l]]; try (simpl in H; lia). cbn [evens odds length].
    destruct (IH l) as [-> ->]; [simpl in H; lia|]. auto.
Qed.

Lemma firstn_S_nth {A} (l : list A) i d : (i < length l)%nat -> firstn i l ++ [nth i l d] = firstn (S i) l.
Proof.
  revert i; induction l as [|x l IH]; intros [|i] H; simpl in H; try lia; [reflexivity|].
  cbn [firstn nth app]. f_equal. apply IH. lia.
Qed.
Lemma copy_even_ok Ys E : forall n i D R, blk64 Ys -> blk64 (D ++ R) -> E = evens Ys ->
  (i + n = length E)%nat -> (2 * length E <= length Ys)%nat -> length D = i -> (n <= length R)%nat -> D = firstn i E ->
  ref_copy_even n i (concat (D ++ R)) (concat Ys) = Ok (concat (E ++ skipn n R)).
Proof.
  induction n as [|n IH]; intros i D R HY HD HE Hn H2 HL HR ED.
  - cbn [ref_copy_even skipn]. rewrite ED, firstn_all2 by lia. reflexivity.
  - cbn [ref_copy_even]. unfold blkcpy8. destruct R as [|x R]; [simpl in HR; lia|].
    rewrite (blk_rd _ 64 (i * 2) []); [|apply blocks_good_len; exact HY|lia]. cbn [bind].
    assert (length (nth (i * 2) Ys []) = 64%nat /\ bytes_ok (nth (i * 2) Ys [])) as [L O]
      by (apply (proj1 (Forall_forall _ _) HY), nth_In; lia).
    rewrite blk_wr; [|apply blocks_good_len; exact HD|rewrite app_length; simpl; lia|exact L]. cbn [bind].
    replace (set_nth (D ++ x :: R) i (nth (i * 2) Ys [])) with (D ++ nth (i * 2) Ys [] :: R)
      by (rewrite <- HL at 2; symmetry; apply set_nth_app).
    replace (D ++ nth (i * 2) Ys [] :: R) with ((D ++ [nth (i * 2) Ys []]) ++ R) by (rewrite <- app_assoc; reflexivity).
    rewrite IH; auto.
    + apply Forall_app in HD. destruct HD as [D1 D2]. inversion D2; subst.
      rewrite <- app_assoc. apply Forall_app. split; [exact D1|]. constructor; auto.
    + lia.
    + rewrite app_length. simpl. lia.
    + simpl in HR. lia.
    + destruct (nth_evens Ys [] i) as [<- _]. rewrite <- HE. rewrite ED.
      apply firstn_S_nth. lia.
Qed.
Lemma copy_odd_ok Ys P O : forall n i r D R, blk64 Ys -> blk64 (P ++ D ++ R) -> O = odds Ys ->
  length P = r ->
  (i + n = length O)%nat -> (2 * length O <= length Ys)%nat -> length D = i -> (n <= length R)%nat -> D = firstn i O ->
  ref_copy_odd n i r (concat (P ++ D ++ R)) (concat Ys) = Ok (concat (P ++ O ++ skipn n R)).
Proof.
  induction n as [|n IH]; intros i r D R HY HD HE HP Hn H2 HL HR ED.
  - cbn [ref_copy_odd skipn]. rewrite ED, firstn_all2 by lia. reflexivity.
  - cbn [ref_copy_odd]. unfold blkcpy8. destruct R as [|x R]; [simpl in HR; lia|].
    rewrite (blk_rd _ 64 (i * 2 + 1) []); [|apply blocks_good_len; exact HY|lia]. cbn [bind].
    assert (length (nth (i * 2 + 1) Ys []) = 64%nat /\ bytes_ok (nth (i * 2 + 1) Ys [])) as [L Ok]
      by (apply (proj1 (Forall_forall _ _) HY), nth_In; lia).
    rewrite blk_wr; [|apply blocks_good_len; exact HD|rewrite !app_length; simpl; lia|exact L]. cbn [bind].
    rewrite (app_assoc P D). replace (i + r)%nat with (length (P ++ D)) by (rewrite app_length; lia).
    rewrite set_nth_app. rewrite <- app_assoc.
    replace (D ++ nth (i * 2 + 1) Ys [] :: R) with ((D ++ [nth (i * 2 + 1) Ys []]) ++ R) by (rewrite <- app_assoc; reflexivity).
    rewrite IH; auto.
    + rewrite app_assoc in HD. apply Forall_app in HD. destruct HD as [D1 D2]. inversion D2; subst.
      rewrite <- app_assoc. rewrite app_assoc. apply Forall_app. split; [exact D1|]. constructor; auto.
    + lia.
    + rewrite app_length. simpl. lia.
    + simpl in HR. lia.
    + destruct (nth_evens Ys [] i) as [_ <-]. rewrite <- HE. rewrite ED.
      apply firstn_S_nth. lia.
Qed.

Lemma chunks_good L k B : (0 < L)%nat -> length B = (L * k)%nat -> bytes_ok B ->
  blocks_good L (chunks L B) /\ length (chunks L B) = k.
Proof.
  intros HL HB BO. destruct (chunks_mult L k B HL HB) as [C1 C2]. split; [|exact C1].
  unfold blocks_good. rewrite <- (concat_chunks L B HL) in BO. clear - C2 BO.
  induction C2 as [|c cs Hc _ IH]; constructor; cbn [concat] in BO; apply Forall_app in BO; tauto.
Qed.
Lemma blocks_good_concat L bs : blocks_good L bs -> bytes_ok (concat bs) /\ length (concat bs) = (length bs * L)%nat.
Proof.
  intros H. split; [|apply concat_length_const, blocks_good_len, H].
  apply Forall_concat. eapply Forall_impl; [|exact H]. intros a []; auto.
Qed.

Definition good_r (r : nat) (B : bytes) : Prop := length B = (128 * r)%nat /\ bytes_ok B.
Lemma blockmix_ref_correct r B Y : (0 < r)%nat -> good_r r B -> good_r r Y ->
  exists Y', blockmix_ref B Y r = Ok (scryptBlockMix B, Y') /\ good_r r (scryptBlockMix B) /\ good_r r Y'.
Proof.
  intros Hr [HB OB] [HY OY]. unfold blockmix_ref.
  destruct (chunks_good 64 (2 * r) B ltac:(lia) ltac:(lia) OB) as [GB LB].
  destruct (chunks_good 64 (2 * r) Y ltac:(lia) ltac:(lia) OY) as [GY LY].
  assert (last (chunks 64 B) [] = sub B ((2 * r - 1) * 64) 64) as EL.
  { rewrite Nat.mul_comm. apply last_chunk; lia. }
  assert (chunks 64 B <> []) as Hne by (destruct (chunks 64 B); [simpl in LB; lia|discriminate]).
  destruct (Forall_last _ _ Hne GB) as [L0 O0].
  unfold blkcpy8 at 1. rewrite rd_ok by lia. cbn [bind]. rewrite <- EL.
  rewrite wr_all by (rewrite L0; reflexivity). cbn [bind].
  destruct (chain_blk (last (chunks 64 B) []) (chunks 64 B) L0 O0 GB) as [GC LC].
  pose proof (ref_loop_ok (chunks 64 B) [] [] (chunks 64 Y) (last (chunks 64 B) []) GB GY eq_refl ltac:(lia) L0 O0) as E.
  cbn [app length] in E. rewrite !concat_chunks, LB in E by lia. rewrite E. cbn [bind]. clear E.
  set (C := chainH Salsa20_8 (last (chunks 64 B) []) (chunks 64 B)) in *.
  destruct (evens_odds_len r C ltac:(lia)) as [LE LO].
  pose proof (copy_even_ok C (evens C) r 0 [] (chunks 64 B) GC GB eq_refl ltac:(lia) ltac:(lia) eq_refl ltac:(lia) eq_refl) as E1.
  cbn [app] in E1. rewrite concat_chunks in E1 by lia. rewrite E1. cbn [bind]. clear E1.
  destruct (Forall_evens _ _ GC) as [GE GO].
  pose proof (copy_odd_ok C (evens C) (odds C) r 0 r [] (skipn r (chunks 64 B)) GC) as E2.
  cbn [app] in E2. rewrite E2; auto; try lia.
  - cbn [bind]. rewrite (skipn_all2 (n := r) (skipn r (chunks 64 B))) by (rewrite skipn_length; lia).
    rewrite app_nil_r.
    rewrite scryptBlockMix_bmixH. unfold bmixH. cbv zeta. fold C.
    exists (concat C). split; [reflexivity|].
    assert (blk64 (evens C ++ odds C)) as GF by (apply Forall_app; auto).
    destruct (blocks_good_concat 64 _ GF) as [A1 A2]. destruct (blocks_good_concat 64 _ GC) as [A3 A4].
    rewrite app_length in A2. split; split; auto; lia.
  - apply Forall_app. split; [exact GE|]. apply Forall_skipn, GB.
  - rewrite skipn_length. lia.
Qed.

Lemma le_val_firstn8 b : (8 <= length b)%nat -> bytes_ok b -> le_val b mod 2 ^ 64 = le_val (firstn 8 b).
Proof.
  intros HL HO. rewrite <- (firstn_skipn 8 b) at 1. rewrite le_val_app, firstn_length, Nat.min_l by lia.
  change (256 ^ N.of_nat 8) with (2 ^ 64). rewrite N.mul_comm, N.mod_add by lia. apply N.mod_small.
  change (2 ^ 64) with (256 ^ N.of_nat 8).
  replace 8%nat with (length (firstn 8 b)) at 2 by (rewrite firstn_length; lia).
  apply le_val_bound. apply Forall_firstn, HO.
Qed.
Lemma integerify_ref_ok r X lg : (0 < r)%nat -> good_r r X -> lg <= 64 ->
  exists j, integerify_ref X r = Ok j /\ j mod 2 ^ lg = Integerify X mod 2 ^ lg.
Proof.
  intros Hr [HX HO] Hlg. unfold integerify_ref. rewrite rd_ok by lia. cbn [bind].
  eexists; split; [reflexivity|].
  rewrite le64dec_spec; [|rewrite sub_length; lia|apply Forall_sub, HO].
  unfold Integerify.
  assert (last (chunks 64 X) [] = sub X ((2 * r - 1) * 64) 64) as ->
    by (rewrite Nat.mul_comm; apply last_chunk; lia).
  rewrite <- (mod_mod_pow2 (le_val (sub X ((2 * r - 1) * 64) 64))) by exact Hlg.
  rewrite le_val_firstn8; [|rewrite sub_length; lia|apply Forall_sub, HO].
  f_equal. f_equal. unfold sub. rewrite firstn_firstn. reflexivity.
Qed.

Lemma iter_bm_good r n B : (0 < r)%nat -> good_r r B -> good_r r (N.iter n scryptBlockMix B).
Proof.
  intros Hr HB. apply niter_ind; auto. intros y Hy.
  destruct (blockmix_ref_correct r y y Hr Hy Hy) as (_ & _ & H & _). exact H.
Qed.

Lemma ref_fill_ok r n : (0 < r)%nat -> forall fuel i N_ V X Y B,
  (n <= fuel)%nat -> i + N.of_nat n = N_ -> N_ < 2 ^ 64 ->
  length V = (N.to_nat N_ * (128 * r))%nat -> good_r r B -> X = N.iter i scryptBlockMix B -> good_r r Y ->
  (forall j, j < i -> sub V (N.to_nat j * (128 * r)) (128 * r) = N.iter j scryptBlockMix B) ->
  exists V' Y', smix_ref_fill fuel i N_ r V X Y = Ok (V', N.iter N_ scryptBlockMix B, Y') /\
    length V' = length V /\ good_r r Y' /\
    (forall j, j < N_ -> sub V' (N.to_nat j * (128 * r)) (128 * r) = N.iter j scryptBlockMix B).
Proof.
  intros Hr. induction n as [|n IH]; intros fuel i N_ V X Y B Hf HN HN64 HV HB HX HY HVj.
  - assert (i = N_) as -> by lia. exists V, Y.
    assert (N_ <? N_ = false) as E by (apply N.ltb_irrefl).
    destruct fuel; cbn [smix_ref_fill]; rewrite E; subst X; auto 6.
  - destruct fuel as [|fuel]; [lia|]. cbn [smix_ref_fill].
    destruct (N.ltb_spec i N_) as [_|]; [|lia].
    assert (good_r r X) as HXg by (subst X; apply iter_bm_good; auto).
    pose proof HXg as [HXl _].
    unfold blkcpy8. rewrite rd_all by auto. cbn [bind].
    rewrite wr_ok by nia. cbn [bind].
    destruct (blockmix_ref_correct r X Y Hr HXg HY) as (Y1 & -> & G1 & G2). cbn [bind].
    rewrite (w64_small (i + 1)) by lia.
    assert (length (upd V (N.to_nat i * (128 * r)) X) = length V) as HV1 by (apply upd_length; nia).
    edestruct (IH fuel (i + 1) N_ (upd V (N.to_nat i * (128 * r)) X) (scryptBlockMix X) Y1 B)
      as (V' & Y' & E & L1 & L2 & L3); try lia; auto.
    + subst X. rewrite niter_succ. reflexivity.
    + intros j Hj. destruct (N.eq_dec j i) as [->|Hj2].
      * rewrite sub_upd_same by nia. exact HX.
      * rewrite sub_upd_before by nia. apply HVj. lia.
    + exists V', Y'. split; [exact E|]. split; [lia|]. auto.
Qed.

Lemma good_xor r a b : good_r r a -> good_r r b -> good_r r (xorl a b).
Proof. intros [A1 A2] [B1 B2]. split; [rewrite xorl_length; lia|apply bytes_ok_xorl; auto]. Qed.

Lemma idx_bound m n L : m < n -> (N.to_nat m * L + L <= N.to_nat n * L)%nat.
Proof. intros H. assert (N.to_nat m + 1 <= N.to_nat n)%nat by lia. nia. Qed.
Lemma ref_mix_ok r n lg : (0 < r)%nat -> forall fuel i N_ V X Y B,
  N_ = 2 ^ lg -> lg < 64 -> (n <= fuel)%nat -> i + N.of_nat n = N_ ->
  length V = (N.to_nat N_ * (128 * r))%nat -> good_r r X -> good_r r B -> good_r r Y ->
  (forall j, j < N_ -> sub V (N.to_nat j * (128 * r)) (128 * r) = N.iter j scryptBlockMix B) ->
  exists Y', smix_ref_mix fuel i N_ r V X Y = Ok (N.iter (N_ - i) (romix_step N_ B) X, Y') /\ good_r r Y'.
Proof.
  intros Hr. induction n as [|n IH]; intros fuel i N_ V X Y B HN2 Hlg Hf HN HV HX HB HY HVj.
  - assert (i = N_) as -> by lia. exists Y. rewrite N.sub_diag.
    assert (N_ <? N_ = false) as E by (apply N.ltb_irrefl).
    destruct fuel; cbn [smix_ref_mix]; rewrite E; auto.
  - destruct fuel as [|fuel]; [lia|]. cbn [smix_ref_mix].
    destruct (N.ltb_spec i N_) as [_|]; [|lia].
    assert (N_ < 2 ^ 64) as HN64 by (subst N_; apply N.pow_lt_mono_r; lia).
    destruct (integerify_ref_ok r X lg Hr HX ltac:(lia)) as (j & -> & Ej). cbn [bind].
    assert (N.land j (w64 (2 ^ 64 + N_ - 1)) = Integerify X mod N_) as ->
      by (subst N_; rewrite pow2_land by lia; exact Ej).
    pose proof (N.mod_lt (Integerify X) N_ ltac:(lia)) as HM.
    pose proof HX as [HXl _].
    unfold blkxor8. rewrite rd_ok by (rewrite HV; apply idx_bound; exact HM). cbn [bind]. rewrite rd_all by auto. cbn [bind].
    rewrite HVj by exact HM.
    pose proof (iter_bm_good r (Integerify X mod N_) B Hr HB) as GV.
    pose proof (good_xor r X _ HX GV) as GX. pose proof GX as [GXl _].
    rewrite wr_all by congruence. cbn [bind].
    destruct (blockmix_ref_correct r _ Y Hr GX HY) as (Y1 & -> & G1 & G2). cbn [bind].
    rewrite (w64_small (i + 1)) by (clear -HN HN64; lia).
    change (scryptBlockMix (xorl X (N.iter (Integerify X mod N_) scryptBlockMix B))) with (romix_step N_ B X) in *.
    edestruct (IH fuel (i + 1) N_ V (romix_step N_ B X) Y1 B) as (Y' & E & E1); auto; [clear -Hf; lia|clear -HN; lia|].
    exists Y'. split; auto. rewrite E. f_equal. f_equal.
    replace (N_ - i) with (N_ - (i + 1) + 1) by (clear -HN; lia).
    rewrite (N.add_1_r (N_ - (i + 1))). symmetry. apply N.iter_succ_r.
Qed.

Theorem smix_ref_correct r lg : (0 < r)%nat -> lg < 64 -> forall B V XY,
  good_r r B -> length V = (N.to_nat (2 ^ lg) * (128 * r))%nat -> length XY = (256 * r)%nat -> bytes_ok XY ->
  exists V' XY', smix_ref B r (2 ^ lg) V XY = Ok (scryptROMix (2 ^ lg) B, V', XY') /\
    length V' = length V /\ length XY' = length XY /\ bytes_ok XY'.
Proof.
  intros Hr Hlg B V XY HB HV HXY HO. pose proof HB as [HBl HBo]. unfold smix_ref.
  assert (2 ^ lg < 2 ^ 64) as HN64 by (apply N.pow_lt_mono_r; lia).
  rewrite !rd_ok by lia. cbn [bind]. unfold blkcpy8 at 1. rewrite rd_all by lia. cbn [bind].
  rewrite wr_all by (rewrite sub_length; lia). cbn [bind].
  assert (good_r r (sub XY (128 * r) (128 * r))) as HY by (split; [apply sub_length; lia|apply Forall_sub, HO]).
  destruct (ref_fill_ok r (N.to_nat (2 ^ lg)) Hr (N.to_nat (2 ^ lg)) 0 (2 ^ lg) V B (sub XY (128 * r) (128 * r)) B)
    as (V' & Y1 & -> & L1 & G1 & HJ); auto; try lia.
  cbn [bind].
  destruct (ref_mix_ok r (N.to_nat (2 ^ lg)) lg Hr (N.to_nat (2 ^ lg)) 0 (2 ^ lg) V' (N.iter (2 ^ lg) scryptBlockMix B) Y1 B)
    as (Y2 & -> & G2); auto; try lia; [apply iter_bm_good; auto|].
  cbn [bind]. rewrite N.sub_0_r.
  change (N.iter (2 ^ lg) (romix_step (2 ^ lg) B) (N.iter (2 ^ lg) scryptBlockMix B)) with (scryptROMix (2 ^ lg) B).
  destruct (scryptROMix_ok r lg B Hr ltac:(lia) HBl HBo) as [RL RO].
  unfold blkcpy8. rewrite rd_all by lia. cbn [bind]. rewrite wr_all by lia. cbn [bind].
  exists V', (scryptROMix (2 ^ lg) B ++ Y2). split; [reflexivity|]. split; [exact L1|].
  destruct G2 as [G2l G2o]. rewrite app_length. split; [lia|]. apply Forall_app; auto.
Qed.
