(** The SSE2 smix computes scryptROMix. *)
From Verif Require Import Base SpecBytes SpecSHA SpecScrypt M_endian P_endian M_sha256_tr M_simd
  M_sha256_hw M_sha256 P_sha256_tr P_sha256_hw P_sha256 M_smix P_salsa P_smix P_smix2.

(** Word index in the original order of word [m] of the permuted array. *)
Definition gidx (m : nat) : nat := (m / 16 * 16 + perm5 (m mod 16))%nat.
Definition permB (W : list N) : list N := fB 16 perm16 W.

Lemma perm5_lt i : (perm5 i < 16)%nat. Proof. apply Nat.mod_upper_bound. lia. Qed.
Lemma perm5_inv i : (i < 16)%nat -> (perm5 i * 13 mod 16 = i)%nat.
Proof. intros H. do 16 (destruct i as [|i]; [reflexivity|]). lia. Qed.
Lemma perm5_surj j : (j < 16)%nat -> perm5 (j * 13 mod 16) = j.
Proof. intros H. do 16 (destruct j as [|j]; [reflexivity|]). lia. Qed.
Lemma gidx_div m : (gidx m / 16 = m / 16)%nat /\ (gidx m mod 16 = perm5 (m mod 16))%nat.
Proof.
  unfold gidx. pose proof (perm5_lt (m mod 16)). split.
  - rewrite Nat.div_add_l by lia. rewrite (Nat.div_small (perm5 (m mod 16))) by lia. lia.
  - rewrite Nat.add_comm, Nat.mod_add by lia. apply Nat.mod_small. lia.
Qed.
Lemma gidx_inj a b : gidx a = gidx b -> a = b.
Proof.
  intros E. destruct (gidx_div a) as [A1 A2], (gidx_div b) as [B1 B2]. rewrite E in A1, A2.
  assert (a mod 16 = b mod 16)%nat as EM.
  { rewrite <- (perm5_inv (a mod 16)) by (apply Nat.mod_upper_bound; lia).
    rewrite <- (perm5_inv (b mod 16)) by (apply Nat.mod_upper_bound; lia). rewrite <- A2, <- B2. reflexivity. }
  rewrite (Nat.div_mod a 16), (Nat.div_mod b 16) by lia. lia.
Qed.
Lemma gidx_surj j : exists m, gidx m = j /\ (m / 16 = j / 16)%nat.
Proof.
  exists (j / 16 * 16 + (j mod 16) * 13 mod 16)%nat. unfold gidx.
  pose proof (Nat.mod_upper_bound (j mod 16 * 13) 16 ltac:(lia)).
  rewrite Nat.div_add_l by lia. rewrite (Nat.div_small (j mod 16 * 13 mod 16)) by lia. rewrite Nat.add_0_r.
  split; [|reflexivity].
  rewrite (Nat.add_comm (j / 16 * 16) (j mod 16 * 13 mod 16)), Nat.mod_add by lia.
  rewrite (Nat.mod_small (j mod 16 * 13 mod 16)) by lia.
  rewrite perm5_surj by (apply Nat.mod_upper_bound; lia).
  pose proof (Nat.div_mod j 16 ltac:(lia)). lia.
Qed.
Lemma gidx_lt m r : (m < 32 * r)%nat -> (gidx m < 32 * r)%nat.
Proof.
  intros H. unfold gidx. pose proof (perm5_lt (m mod 16)).
  assert (m / 16 < 2 * r)%nat by (apply Nat.div_lt_upper_bound; lia). nia.
Qed.

Lemma seq_plus a n s : seq (a + s) n = map (fun i => a + i)%nat (seq s n).
Proof.
  revert s; induction n as [|n IH]; intros s; [reflexivity|].
  cbn [seq map]. f_equal. rewrite <- IH. f_equal. lia.
Qed.
Lemma map_gidx W : (length W mod 16 = 0)%nat ->
  map (fun m => sel W (gidx m)) (seq 0 (length W)) = permB W.
Proof.
  intros H. pattern W. apply (blocks_ind 16); [lia|reflexivity| |exact H].
  intros b l Hb Hl IH. rewrite app_length, Hb, seq_app, map_app.
  unfold permB, fB in *. rewrite chunks_app_block by lia. cbn [map concat]. f_equal.
  - unfold perm16. apply map_ext_in. intros a Ha. apply in_seq in Ha.
    unfold gidx. rewrite Nat.div_small, Nat.mod_small by lia. cbn [Nat.mul Nat.add].
    unfold sel. apply app_nth1. pose proof (perm5_lt a). lia.
  - rewrite <- IH. change (0 + 16)%nat with (16 + 0)%nat. rewrite <- (map_id (seq (16 + 0) (length l))).
    pose proof (seq_plus 16) as Sh.
    rewrite Sh, !map_map. apply map_ext. intros a.
    assert (gidx (16 + a) = 16 + gidx a)%nat as ->.
    { unfold gidx. replace (16 + a)%nat with (a + 1 * 16)%nat by lia.
      rewrite Nat.div_add, Nat.mod_add by lia. lia. }
    unfold sel. rewrite app_nth2 by lia. f_equal. lia.
Qed.

Lemma le_words_sel B k : bytes_ok B -> (length B mod 4 = 0)%nat -> (4 * k + 4 <= length B)%nat ->
  le_val (sub B (4 * k) 4) = sel (le_words B) k.
Proof.
  intros _ H. revert k. pattern B. apply (blocks_ind 4); [lia| | |exact H].
  - intros k Hk. simpl in Hk. lia.
  - intros b l Hb Hl IH k Hk. unfold le_words, sel in *. rewrite chunks_app_block by lia. cbn [map].
    destruct k as [|k].
    + cbn [nth]. f_equal. change (4 * 0)%nat with 0%nat. change (b ++ l) with ([] ++ b ++ l).
      rewrite <- Hb. apply (sub_app_mid []).
    + cbn [nth]. rewrite <- IH by (rewrite app_length in Hk; lia).
      unfold sub. replace (4 * S k)%nat with (4 * k + 4)%nat by lia.
      rewrite <- skipn_skipn. rewrite (skipn_app 4), Hb, Nat.sub_diag. rewrite (skipn_all2 b) by lia. reflexivity.
Qed.

Lemma load_sse2_ok B r : length B = (128 * r)%nat -> bytes_ok B -> forall n m X R,
  (m + n = 32 * r)%nat -> length X = m -> length R = n ->
  load_words_sse2 n m B (X ++ R) = Ok (X ++ map (fun m => sel (le_words B) (gidx m)) (seq m n)).
Proof.
  intros HB Hok. destruct (load_facts B r HB Hok) as [H4 _].
  induction n as [|n IH]; intros m X R Hmn HX HR.
  - destruct R; [|discriminate]. reflexivity.
  - cbn [load_words_sse2].
    pose proof (gidx_lt m r ltac:(lia)) as Hg.
    change (m / 16 * 16 + perm5 (m mod 16))%nat with (gidx m).
    replace (m / 16 * 16 + m mod 16)%nat with m by (pose proof (Nat.div_mod m 16 ltac:(lia)); lia).
    rewrite rd_ok by lia. cbn [bind].
    destruct R as [|x R]; [discriminate|]. change (x :: R) with ([x] ++ R).
    rewrite wr_at by auto. cbn [bind]. rewrite app_assoc.
    rewrite IH; [| lia | rewrite app_length; simpl; lia | simpl in HR; lia].
    rewrite <- app_assoc. cbn [seq map app]. do 3 f_equal.
    rewrite le32dec_spec; [|rewrite sub_length; lia|apply Forall_sub, Hok].
    rewrite (Nat.mul_comm (gidx m) 4). rewrite le_words_sel by (auto; lia). reflexivity.
Qed.

Lemma upd_unwords W p x : (p < length W)%nat ->
  upd (le_unwords W) (4 * p) (le_bytes 4 x) = le_unwords (set_nth W p x).
Proof.
  revert p; induction W as [|w W IH]; intros p Hp; [simpl in Hp; lia|].
  destruct p as [|p].
  - change (4 * 0)%nat with 0%nat. unfold upd. rewrite le_bytes_length. cbn [firstn app set_nth].
    unfold le_unwords. cbn [flat_map]. rewrite skipn_app, le_bytes_length.
    rewrite skipn_all2 by (rewrite le_bytes_length; lia). reflexivity.
  - cbn [set_nth]. unfold le_unwords in *. cbn [flat_map]. rewrite <- IH by (simpl in Hp; lia).
    unfold upd. replace (4 * S p)%nat with (4 + 4 * p)%nat by lia.
    assert (forall k, firstn (4 + k) (le_bytes 4 w ++ flat_map (le_bytes 4) W) = le_bytes 4 w ++ firstn k (flat_map (le_bytes 4) W)) as E1.
    { intros k. rewrite firstn_app, le_bytes_length. rewrite firstn_all2 by (rewrite le_bytes_length; lia).
      f_equal. f_equal. lia. }
    assert (forall k, skipn (4 + k) (le_bytes 4 w ++ flat_map (le_bytes 4) W) = skipn k (flat_map (le_bytes 4) W)) as E2.
    { intros k. rewrite skipn_app, le_bytes_length. rewrite skipn_all2 by (rewrite le_bytes_length; lia).
      cbn [app]. f_equal. lia. }
    rewrite E1. rewrite <- Nat.add_assoc. rewrite E2. rewrite <- app_assoc. reflexivity.
Qed.

Lemma store_sse2_ok r X : length X = (32 * r)%nat -> forall n m Wb,
  (m + n = 32 * r)%nat -> length Wb = (32 * r)%nat ->
  (forall j, (j < m)%nat -> sel Wb (gidx j) = sel X j) ->
  exists Wb', store_words_sse2 n m X (le_unwords Wb) = Ok (le_unwords Wb') /\ length Wb' = (32 * r)%nat /\
    (forall j, (j < 32 * r)%nat -> sel Wb' (gidx j) = sel X j).
Proof.
  intros HX. induction n as [|n IH]; intros m Wb Hmn HW Hj.
  - exists Wb. cbn [store_words_sse2]. split; [reflexivity|]. split; auto. intros j Hlt. apply Hj. lia.
  - cbn [store_words_sse2].
    pose proof (gidx_lt m r ltac:(lia)) as Hg.
    change (m / 16 * 16 + perm5 (m mod 16))%nat with (gidx m).
    replace (m / 16 * 16 + m mod 16)%nat with m by (pose proof (Nat.div_mod m 16 ltac:(lia)); lia).
    rewrite rd_ok by lia. cbn [bind]. rewrite sel_sub by lia. rewrite Nat.add_0_r.
    rewrite le32enc_spec.
    rewrite wr_ok by (rewrite le_bytes_length, le_unwords_length; lia). cbn [bind].
    rewrite (Nat.mul_comm (gidx m) 4). rewrite upd_unwords by lia.
    apply IH; [lia|rewrite set_nth_length; exact HW|].
    intros j Hlt. unfold sel at 1. destruct (Nat.eq_dec j m) as [->|Hne].
    + apply nth_set_nth_eq. lia.
    + rewrite nth_set_nth_ne; [apply Hj; lia|]. intros E. apply gidx_inj in E. lia.
Qed.

Lemma sel_permB W m : (length W mod 16 = 0)%nat -> (m < length W)%nat -> sel (permB W) m = sel W (gidx m).
Proof.
  intros H Hm. rewrite <- map_gidx by exact H. unfold sel at 1.
  rewrite (nth_indep _ 0 (sel W (gidx 0))) by (rewrite map_length, seq_length; exact Hm).
  rewrite (map_nth (fun m => sel W (gidx m))). rewrite seq_nth by exact Hm. reflexivity.
Qed.
Lemma permB_length W : (length W mod 16 = 0)%nat -> length (permB W) = length W.
Proof. intros H. rewrite <- map_gidx by exact H. rewrite map_length, seq_length. reflexivity. Qed.

Lemma store_sse2_perm r W B : length W = (32 * r)%nat -> length B = (128 * r)%nat -> bytes_ok B ->
  store_words_sse2 (32 * r) 0 (permB W) B = Ok (le_unwords W).
Proof.
  intros HW HB Hok. destruct (load_facts B r HB Hok) as [H4 [G1 _]].
  assert (length W mod 16 = 0)%nat as H16
    by (rewrite HW; replace (32 * r)%nat with (2 * r * 16)%nat by lia; apply Nat.mod_mul; lia).
  rewrite <- (le_unwords_words B) by auto.
  destruct (store_sse2_ok r (permB W) ltac:(rewrite permB_length; auto) (32 * r) 0 (le_words B))
    as (Wb & -> & HL & HJ); auto; try lia.
  f_equal. f_equal. apply (nth_ext _ _ 0 0); [lia|].
  intros j Hlt. destruct (gidx_surj j) as (m & <- & Hd).
  assert (m < 32 * r)%nat as Hm.
  { assert (gidx m / 16 < 2 * r)%nat by (apply Nat.div_lt_upper_bound; lia).
    pose proof (Nat.div_mod m 16 ltac:(lia)). pose proof (Nat.mod_upper_bound m 16 ltac:(lia)). lia. }
  specialize (HJ m Hm). rewrite sel_permB in HJ by (auto; lia). exact HJ.
Qed.

(* ---------------- commutation ---------------- *)
Lemma perm16_xorl a b : length a = 16%nat -> length b = 16%nat -> perm16 (xorl a b) = xorl (perm16 a) (perm16 b).
Proof. intros Ha Hb. list16 a Ha. list16 b Hb. reflexivity. Qed.
Lemma perm16_H x : length x = 16%nat -> perm16 (salsa20_8_words x) = salsa_sse2_pure (perm16 x).
Proof. intros H. unfold salsa_sse2_pure. rewrite unperm_perm by exact H. reflexivity. Qed.

Definition Gl (r : nat) (X : list N) : Prop := length X = (32 * r)%nat.
Lemma Gl_mod r X : Gl r X -> (length X mod 16 = 0)%nat.
Proof. intros ->. replace (32 * r)%nat with (2 * r * 16)%nat by lia. apply Nat.mod_mul. lia. Qed.
Lemma Gl_goodB r X : Gl r X -> goodB 16 (fun _ => True) X.
Proof.
  intros HL. unfold goodB, gblk.
  destruct (chunks_mult 16 (2 * r) X ltac:(lia) ltac:(unfold Gl in HL; lia)) as [_ C2].
  eapply Forall_impl; [|exact C2]. auto.
Qed.
Definition sbm := bmixH salsa_sse2_pure 16.
Lemma sbm_spec r X : (0 < r)%nat -> Gl r X -> permB (wbm X) = sbm (permB X) /\ Gl r (wbm X).
Proof.
  intros Hr HX.
  destruct (bmix_transport 16 16 perm16 salsa20_8_words salsa_sse2_pure (fun _ => True)
    ltac:(lia) ltac:(lia)) with (B := X) as [T1 T2]; auto.
  - intros a b Ha _ Hb _. apply perm16_xorl; auto.
  - apply salsa20_8_words_length.
  - intros x Hx _. apply perm16_H; auto.
  - unfold Gl in HX. destruct X; [simpl in HX; lia|discriminate].
  - eapply Gl_goodB; eauto.
  - split; [symmetry; exact T1|]. apply bmixH_length; auto using salsa20_8_words_length.
Qed.
Lemma permB_xorl r a b : Gl r a -> Gl r b -> permB (xorl a b) = xorl (permB a) (permB b).
Proof.
  intros Ha Hb.
  assert (Gl r (xorl a b)) as Hab by (unfold Gl in *; rewrite xorl_length; lia).
  apply (nth_ext _ _ 0 0).
  - rewrite permB_length by (eapply Gl_mod; eauto). rewrite !xorl_length, !permB_length by (eapply Gl_mod; eauto). reflexivity.
  - intros n Hn. rewrite permB_length in Hn by (eapply Gl_mod; eauto).
    change (sel (permB (xorl a b)) n = sel (xorl (permB a) (permB b)) n).
    rewrite sel_permB by (auto; eapply Gl_mod; eauto).
    assert (forall (x y : list N) i, length x = length y -> sel (xorl x y) i = N.lxor (sel x i) (sel y i)) as SX.
    { clear. induction x as [|u x IH]; intros [|v y] i H; try discriminate.
      - destruct i; reflexivity.
      - destruct i as [|i]; [reflexivity|]. unfold sel in *. cbn [xorl nth]. apply IH. simpl in H. lia. }
    unfold Gl in *. rewrite xorl_length in Hn.
    rewrite !SX by (rewrite ?permB_length; auto; try lia; eapply Gl_mod; eauto).
    rewrite !sel_permB by (try lia; eapply Gl_mod; eauto). reflexivity.
Qed.
Definition sig (r : nat) (Y : list N) : N :=
  w64 (w64 (N.shiftl (sel Y ((2 * r - 1) * 16 + 13)) 32) + sel Y ((2 * r - 1) * 16)).
Lemma integerify_sse2_ok r Y : (0 < r)%nat -> length Y = (32 * r)%nat -> integerify_sse2 Y r = Ok (sig r Y).
Proof.
  intros Hr HY. unfold integerify_sse2, sig.
  replace (4 * ((2 * r - 1) * 4))%nat with ((2 * r - 1) * 16)%nat by lia.
  rewrite rd_ok by lia. cbn [bind]. unfold vload32.
  rewrite !rd_ok by (rewrite sub_length; lia). cbn [bind vlane].
  rewrite !sel_sub by lia. do 3 f_equal. f_equal. lia.
Qed.
Lemma sig_perm r X : (0 < r)%nat -> Gl r X -> sig r (permB X) = wig r X.
Proof.
  intros Hr HX. unfold sig, wig. unfold Gl in HX.
  rewrite !sel_permB by (try lia; eapply Gl_mod; eauto).
  assert (gidx ((2 * r - 1) * 16 + 13) = (2 * r - 1) * 16 + 1)%nat as ->.
  { unfold gidx. rewrite Nat.div_add_l by lia. rewrite Nat.add_comm, (Nat.add_comm _ 13), Nat.mod_add by lia.
    change (perm5 (13 mod 16)) with 1%nat. change (13 / 16)%nat with 0%nat. lia. }
  assert (gidx ((2 * r - 1) * 16) = (2 * r - 1) * 16)%nat as ->.
  { unfold gidx. rewrite Nat.div_mul, Nat.mod_mul by lia. change (perm5 0) with 0%nat. lia. }
  reflexivity.
Qed.

Theorem crypto_scrypt_smix_sse2_correct B r lg V XY :
  (0 < r)%nat -> 1 <= lg < 64 -> length B = (128 * r)%nat -> bytes_ok B ->
  length V = (N.to_nat (2 ^ lg) * (32 * r))%nat -> length XY = (64 * r + 16)%nat ->
  exists V' XY', crypto_scrypt_smix_sse2 B r (2 ^ lg) V XY = Ok (scryptROMix (2 ^ lg) B, V', XY') /\
    length V' = length V /\ length XY' = length XY.
Proof.
  intros Hr Hlg HB HBok HV HXY. unfold crypto_scrypt_smix_sse2.
  destruct (split_XY_ok XY r HXY) as (X & Y & Z & -> & EXY & LX & LY & LZ). cbn [bind].
  destruct (load_facts B r HB HBok) as [HB4 HG]. pose proof HG as [HG1 HG2].
  pose proof (load_sse2_ok B r HB HBok (32 * r) 0 [] X ltac:(lia) eq_refl LX) as EL.
  cbn [app] in EL. rewrite EL. cbn [bind].
  rewrite <- HG1. rewrite map_gidx by (apply (Gl_mod r); exact HG1). rewrite HG1.
  destruct (smix_loops_ok blockmix_salsa8_sse2 integerify_sse2 sbm (sig r) r lg V (permB (le_words B)) Y Z)
    as (V' & X1 & Y1 & Z1 & Y2 & Z2 & -> & E2 & HV' & HY2 & HZ2); auto.
  - intros; apply blockmix_sse2_correct; auto.
  - intros; apply bmixH_length; auto.
  - intros; apply integerify_sse2_ok; auto.
  - rewrite permB_length by (apply (Gl_mod r); exact HG1). exact HG1.
  - cbn [bind]. rewrite E2. cbn [bind].
    destruct (romix_transport permB (Gl r) wbm sbm (wig r) (sig r) (2 ^ lg)) with (B := le_words B) as [T1 T2]; auto.
    + intros; apply (sbm_spec r); auto.
    + intros; apply (sbm_spec r); auto.
    + intros; apply (permB_xorl r); auto.
    + intros a b Ha Hb. unfold Gl in *. rewrite xorl_length. lia.
    + intros x Hx. rewrite sig_perm by auto. reflexivity.
    + destruct (wromix_spec r lg (le_words B) Hr ltac:(lia) HG) as [E1 [G1 G2]].
      rewrite <- T1. rewrite store_sse2_perm by auto. cbn [bind].
      rewrite E1, le_unwords_words by auto.
      eexists V', _. split; [reflexivity|]. split; [exact HV'|].
      rewrite !app_length, permB_length by (apply (Gl_mod r); exact G1). lia.
Qed.
