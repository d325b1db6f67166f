(** smix (generic and SSE2) computes scryptROMix. *)
From Verif Require Import Base SpecBytes SpecSHA SpecScrypt M_endian P_endian M_sha256_tr M_simd
  M_sha256_hw M_sha256 P_sha256_tr P_sha256_hw P_sha256 M_smix P_salsa P_smix.

Lemma nat_iter_S {A} k (f : A -> A) x : Nat.iter (S k) f x = f (Nat.iter k f x).
Proof. reflexivity. Qed.
Section RomixTransport.
  Context (F : list N -> list N) (G : list N -> Prop) (bm bm' : list N -> list N) (ig ig' : list N -> N) (N_ : N)
    (F_bm : forall X, G X -> F (bm X) = bm' (F X)) (G_bm : forall X, G X -> G (bm X))
    (F_xor : forall a b, G a -> G b -> F (xorl a b) = xorl (F a) (F b))
    (G_xor : forall a b, G a -> G b -> G (xorl a b))
    (F_ig : forall X, G X -> ig' (F X) mod N_ = ig X mod N_).
  Lemma niter_ind {A} (P : A -> Prop) (f : A -> A) n x : P x -> (forall y, P y -> P (f y)) -> P (N.iter n f x).
  Proof. intros H0 HS. rewrite N2Nat.inj_iter. induction (N.to_nat n); simpl; auto. Qed.
  Lemma V_transport B n : G B -> F (N.iter n bm B) = N.iter n bm' (F B) /\ G (N.iter n bm B).
  Proof.
    intros HB. rewrite !N2Nat.inj_iter. induction (N.to_nat n) as [|k [I1 I2]]; [auto|].
    rewrite !nat_iter_S. split; [|apply G_bm, I2]. rewrite F_bm by exact I2. f_equal. exact I1.
  Qed.
  Lemma romix_transport B : G B ->
    F (romixH bm ig N_ B) = romixH bm' ig' N_ (F B) /\ G (romixH bm ig N_ B).
  Proof.
    intros HB. unfold romixH, romixV. destruct (V_transport B N_ HB) as [V1 V2]. rewrite <- V1.
    revert V2. generalize (N.iter N_ bm B). intros X HX.
    assert (forall n, F (Nat.iter n (romixStep bm ig N_ B) X) = Nat.iter n (romixStep bm' ig' N_ (F B)) (F X) /\
      G (Nat.iter n (romixStep bm ig N_ B) X)) as HH.
    { induction n as [|k [I1 I2]]; [auto|]. rewrite !nat_iter_S. rewrite <- I1.
      set (Xk := Nat.iter k (romixStep bm ig N_ B) X) in *.
      unfold romixStep, romixV. rewrite F_ig by exact I2.
      destruct (V_transport B (ig Xk mod N_) HB) as [W1 W2].
      rewrite <- W1. rewrite <- F_xor by auto. rewrite <- F_bm by auto. split; auto. }
    rewrite !N2Nat.inj_iter. apply HH.
  Qed.
End RomixTransport.

Lemma scryptROMix_romixH N_ B : scryptROMix N_ B = romixH scryptBlockMix Integerify N_ B.
Proof. reflexivity. Qed.

(* ---------------- words <-> bytes ---------------- *)
Lemma le_bytes_lxor n x y : le_bytes n (N.lxor x y) = xorl (le_bytes n x) (le_bytes n y).
Proof.
  revert x y; induction n as [|n IH]; intros x y; [reflexivity|].
  cbn [le_bytes xorl]. f_equal.
  - change 256 with (2 ^ 8). rewrite <- !N.land_ones.
    apply N.bits_inj. intros i. rewrite !N.land_spec, !N.lxor_spec, !N.land_spec.
    destruct (N.testbit x i), (N.testbit y i), (N.testbit (N.ones 8) i); reflexivity.
  - rewrite <- IH. f_equal. change 256 with (2 ^ 8). rewrite <- !N.shiftr_div_pow2. apply N.shiftr_lxor.
Qed.
Lemma le_unwords_xorl a b : length a = length b -> le_unwords (xorl a b) = xorl (le_unwords a) (le_unwords b).
Proof.
  revert b; induction a as [|x a IH]; intros [|y b] H; try discriminate; [reflexivity|].
  unfold le_unwords in *. cbn [xorl flat_map]. rewrite le_bytes_lxor, IH by (simpl in H; lia).
  rewrite xorl_app by (rewrite !le_bytes_length; reflexivity). reflexivity.
Qed.
Lemma words_ok_xorl a b : words_ok a -> words_ok b -> words_ok (xorl a b).
Proof.
  intros Ha. revert b; induction Ha as [|x a Hx _ IH]; intros b Hb; [constructor|].
  destruct Hb as [|y b Hy Hb]; [constructor|]. cbn [xorl]. constructor; [apply lxor_lt; assumption|apply IH, Hb].
Qed.
Lemma Salsa20_8_unwords x : words_ok x -> le_unwords (salsa20_8_words x) = Salsa20_8 (le_unwords x).
Proof. intros H. unfold Salsa20_8. rewrite le_words_unwords by exact H. reflexivity. Qed.

Lemma fB_unwords B : fB 16 le_unwords B = le_unwords B.
Proof.
  unfold fB. rewrite <- (concat_chunks 16 B) at 2 by lia.
  induction (chunks 16 B) as [|c cs IH]; [reflexivity|].
  cbn [map concat]. rewrite le_unwords_app, IH. reflexivity.
Qed.
Definition Gw (r : nat) (X : list N) : Prop := length X = (32 * r)%nat /\ words_ok X.
Lemma Gw_goodB r X : Gw r X -> goodB 16 words_ok X.
Proof.
  intros [HL HW]. unfold goodB.
  destruct (chunks_mult 16 (2 * r) X ltac:(lia) ltac:(lia)) as [_ C2].
  rewrite <- (concat_chunks 16 X ltac:(lia)) in HW.
  induction C2 as [|c cs Hc _ IH]; constructor.
  - split; auto. cbn [concat] in HW. apply Forall_app in HW. tauto.
  - apply IH. cbn [concat] in HW. apply Forall_app in HW. tauto.
Qed.
Lemma goodB_words_ok X : goodB 16 words_ok X -> words_ok X.
Proof.
  intros H. rewrite <- (concat_chunks 16 X) by lia. unfold goodB in H.
  induction H as [|c cs [_ Hc] _ IH]; [constructor|]. cbn [concat]. apply Forall_app. auto.
Qed.
Lemma evens_odds_length {A} (l : list A) : (length (evens l) + length (odds l) = length l)%nat.
Proof.
  assert (forall n (l : list A), (length l <= n)%nat -> (length (evens l) + length (odds l) = length l)%nat) as HH.
  { induction n as [|n IH]; intros [|a [|b l']] Hl; cbn [length] in Hl; try lia; try reflexivity.
    cbn [evens odds length]. specialize (IH l'). lia. }
  eapply HH, le_n.
Qed.
Lemma bmixH_length H r X : (forall x, length x = 16%nat -> length (H x) = 16%nat) ->
  (0 < r)%nat -> length X = (32 * r)%nat -> length (bmixH H 16 X) = (32 * r)%nat.
Proof.
  intros HH Hr HX. unfold bmixH. cbv zeta.
  destruct (chunks_mult 16 (2 * r) X ltac:(lia) ltac:(lia)) as [C1 C2].
  assert (chunks 16 X <> []) as Hne by (destruct (chunks 16 X); [simpl in C1; lia|discriminate]).
  destruct (chainH_len H HH (last (chunks 16 X) []) (chunks 16 X)) as [L1 L2]; auto.
  { exact (Forall_last (fun b => length b = 16%nat) (chunks 16 X) Hne C2). }
  set (Y := chainH H (last (chunks 16 X) []) (chunks 16 X)) in *.
  rewrite (concat_length_const _ 16).
  - rewrite app_length, evens_odds_length. lia.
  - apply Forall_app. apply (Forall_evens (fun b => length b = 16%nat)). exact L1.
Qed.
Lemma Gw_ne r X : (0 < r)%nat -> Gw r X -> X <> [].
Proof. intros Hr [H _] ->. simpl in H. lia. Qed.

Definition wbm := bmixH salsa20_8_words 16.
Lemma wbm_spec r X : (0 < r)%nat -> Gw r X ->
  le_unwords (wbm X) = scryptBlockMix (le_unwords X) /\ Gw r (wbm X).
Proof.
  intros Hr HX. rewrite scryptBlockMix_bmixH.
  destruct (bmix_transport 16 64 le_unwords salsa20_8_words Salsa20_8 words_ok
    ltac:(lia) ltac:(lia)) with (B := X) as [T1 T2].
  - intros x Hx. rewrite le_unwords_length. lia.
  - intros a b Ha _ Hb _. apply le_unwords_xorl. lia.
  - intros a b _ Ga _ Gb. apply words_ok_xorl; auto.
  - intros x Hx _. apply salsa20_8_words_ok; auto.
  - apply salsa20_8_words_length.
  - intros x _ Hx. apply Salsa20_8_unwords; auto.
  - eapply Gw_ne; eauto.
  - eapply Gw_goodB; eauto.
  - rewrite !fB_unwords in T1. split; [symmetry; exact T1|].
    split; [apply bmixH_length; auto using salsa20_8_words_length; apply HX|].
    apply goodB_words_ok. exact T2.
Qed.

(** integerify *)
Definition wig (r : nat) (X : list N) : N :=
  w64 (w64 (N.shiftl (sel X ((2 * r - 1) * 16 + 1)) 32) + sel X ((2 * r - 1) * 16)).
Lemma integerify_ok r X : (0 < r)%nat -> length X = (32 * r)%nat -> integerify X r = Ok (wig r X).
Proof.
  intros Hr HX. unfold integerify, wig. rewrite rd_ok by lia. cbn [bind].
  rewrite !sel_sub by lia. do 2 f_equal. f_equal. f_equal. lia.
Qed.
Lemma le_val_app a b : le_val (a ++ b) = le_val a + 256 ^ N.of_nat (length a) * le_val b.
Proof.
  induction a as [|x a IH]; [simpl; change (N.of_nat 0) with 0; rewrite N.pow_0_r; lia|].
  cbn [app le_val length]. rewrite IH, Nat2N.inj_succ, N.pow_succ_r'. lia.
Qed.
Lemma le_val_unwords2 a b l : a < 2 ^ 32 -> b < 2 ^ 32 ->
  le_val (le_unwords (a :: b :: l)) mod 2 ^ 64 = a + 2 ^ 32 * b.
Proof.
  intros Ha Hb. change (a :: b :: l) with ([a] ++ [b] ++ l). rewrite !le_unwords_app, !le_val_app.
  rewrite !le_unwords_length. cbn [length]. change (256 ^ N.of_nat (4 * 1)) with (2 ^ 32).
  unfold le_unwords at 1 2. cbn [flat_map]. rewrite !app_nil_r, !le_val_le_bytes.
  change (256 ^ N.of_nat 4) with (2 ^ 32). rewrite !(N.mod_small _ (2 ^ 32)) by assumption.
  replace (a + 2 ^ 32 * (b + 2 ^ 32 * le_val (le_unwords l)))
    with (a + 2 ^ 32 * b + le_val (le_unwords l) * 2 ^ 64) by lia.
  rewrite N.mod_add by lia. apply N.mod_small. lia.
Qed.
Lemma mod_mod_pow2 x lg : lg <= 64 -> (x mod 2 ^ 64) mod 2 ^ lg = x mod 2 ^ lg.
Proof.
  intros H. replace 64 with (lg + (64 - lg)) by lia. rewrite N.pow_add_r.
  rewrite N.mod_mul_r by (apply N.pow_nonzero; lia).
  rewrite N.mul_comm, N.mod_add by (apply N.pow_nonzero; lia).
  apply N.mod_mod, N.pow_nonzero. lia.
Qed.
Lemma sel_words_ok X i : words_ok X -> sel X i < 2 ^ 32.
Proof.
  intros H. unfold sel. destruct (Nat.lt_ge_cases i (length X)) as [Hi|Hi].
  - unfold words_ok in H. rewrite Forall_forall in H. apply H. apply nth_In. exact Hi.
  - rewrite nth_overflow by exact Hi. lia.
Qed.
Lemma chunks_unwords r X : length X = (32 * r)%nat ->
  chunks 64 (le_unwords X) = map le_unwords (chunks 16 X).
Proof.
  intros HX. destruct (chunks_mult 16 (2 * r) X ltac:(lia) ltac:(lia)) as [_ C2].
  rewrite <- (concat_chunks 16 X) at 1 by lia.
  assert (forall cs, le_unwords (concat cs) = concat (map le_unwords cs)) as E.
  { induction cs as [|c cs IH]; [reflexivity|]. cbn [concat map]. rewrite le_unwords_app, IH. reflexivity. }
  rewrite E. apply chunks_concat; [lia|]. apply Forall_map. eapply Forall_impl; [|exact C2].
  intros a Ha. cbv beta in *. rewrite le_unwords_length. lia.
Qed.
Lemma last_unwords r X : (0 < r)%nat -> length X = (32 * r)%nat ->
  last (chunks 64 (le_unwords X)) [] = le_unwords (sub X ((2 * r - 1) * 16) 16).
Proof.
  intros Hr HX. rewrite (chunks_unwords r) by exact HX.
  destruct (chunks_mult 16 (2 * r) X ltac:(lia) ltac:(lia)) as [C1 _].
  rewrite (last_map le_unwords) by (destruct (chunks 16 X); [simpl in C1; lia|discriminate]).
  f_equal. rewrite Nat.mul_comm. apply last_chunk; lia.
Qed.
Lemma sub_cons l o n : (o < length l)%nat -> sub l o (S n) = sel l o :: sub l (S o) n.
Proof.
  unfold sub, sel. revert l; induction o as [|o IH]; intros [|x l] H; cbn [length] in H; try lia; [reflexivity|].
  cbn [skipn nth]. rewrite IH by lia. reflexivity.
Qed.
Lemma wig_spec r X lg : (0 < r)%nat -> Gw r X -> lg <= 64 ->
  Integerify (le_unwords X) mod 2 ^ lg = wig r X mod 2 ^ lg.
Proof.
  intros Hr [HX HW] Hlg. unfold Integerify. rewrite (last_unwords r) by auto.
  rewrite <- (mod_mod_pow2 (le_val _)) by exact Hlg. f_equal.
  assert (exists l, sub X ((2 * r - 1) * 16) 16 =
    sel X ((2 * r - 1) * 16) :: sel X ((2 * r - 1) * 16 + 1) :: l) as [l ->].
  { exists (sub X (S (S ((2 * r - 1) * 16))) 14). rewrite sub_cons by lia. f_equal.
    rewrite sub_cons by lia. f_equal. f_equal. lia. }
  pose proof (sel_words_ok X ((2 * r - 1) * 16) HW) as Ha.
  pose proof (sel_words_ok X ((2 * r - 1) * 16 + 1) HW) as Hb.
  rewrite le_val_unwords2 by assumption. unfold wig.
  rewrite N.shiftl_mul_pow2.
  rewrite (w64_small (sel X ((2 * r - 1) * 16 + 1) * 2 ^ 32)) by lia. rewrite w64_small by lia. lia.
Qed.

Lemma Gw_xor r a b : Gw r a -> Gw r b -> Gw r (xorl a b).
Proof. intros [A1 A2] [B1 B2]. split; [rewrite xorl_length; lia|apply words_ok_xorl; auto]. Qed.

Lemma wromix_spec r lg B : (0 < r)%nat -> lg <= 64 -> Gw r B ->
  le_unwords (romixH wbm (wig r) (2 ^ lg) B) = scryptROMix (2 ^ lg) (le_unwords B) /\
  Gw r (romixH wbm (wig r) (2 ^ lg) B).
Proof.
  intros Hr Hlg HB. rewrite scryptROMix_romixH.
  apply (romix_transport le_unwords (Gw r) wbm scryptBlockMix (wig r) Integerify); auto.
  - intros X HX. apply (wbm_spec r X Hr HX).
  - intros X HX. apply (wbm_spec r X Hr HX).
  - intros a b [HA _] [HB' _]. apply le_unwords_xorl. lia.
  - apply Gw_xor.
  - intros X HX. apply wig_spec; auto.
Qed.

Lemma split_XY_ok XY r : length XY = (64 * r + 16)%nat ->
  exists X Y Z, split_XY XY r = Ok (X, Y, Z) /\ XY = X ++ Y ++ Z /\
    length X = (32 * r)%nat /\ length Y = (32 * r)%nat /\ length Z = 16%nat.
Proof.
  intros H. unfold split_XY.
  exists (sub XY 0 (32 * r)), (sub XY (32 * r) (32 * r)), (sub XY (64 * r) 16).
  rewrite !rd_ok by lia. cbn [bind]. split; [reflexivity|]. split.
  - unfold sub. rewrite skipn_O.
    rewrite (firstn_all2 (n := 16)) by (rewrite skipn_length; lia).
    replace (64 * r)%nat with (32 * r + 32 * r)%nat by lia.
    rewrite <- skipn_skipn. rewrite !firstn_skipn. reflexivity.
  - rewrite !sub_length by lia. auto.
Qed.

Lemma pow2_half lg : 1 <= lg -> 2 ^ lg = 2 * 2 ^ (lg - 1).
Proof. intros H. replace lg with (N.succ (lg - 1)) at 1 by lia. apply N.pow_succ_r'. Qed.

(** Both loops together, for any correct block mixer and integerifier. *)
Lemma smix_loops_ok bmix intg bm ig r lg V X Y Z :
  (forall X Y Z, length X = (32 * r)%nat -> length Y = (32 * r)%nat -> length Z = 16%nat ->
       exists Z', length Z' = 16%nat /\ bmix X Y Z r = Ok (bm X, Z')) ->
  (forall X, length X = (32 * r)%nat -> length (bm X) = (32 * r)%nat) ->
  (forall X, length X = (32 * r)%nat -> intg X r = Ok (ig X)) ->
  1 <= lg < 64 -> length V = (N.to_nat (2 ^ lg) * (32 * r))%nat ->
  length X = (32 * r)%nat -> length Y = (32 * r)%nat -> length Z = 16%nat ->
  exists V' X1 Y1 Z1 Y' Z',
    smix_fill bmix (N.to_nat (2 ^ lg)) 0 (2 ^ lg) r V X Y Z = Ok (V', X1, Y1, Z1) /\
    smix_mix bmix intg (N.to_nat (2 ^ lg)) 0 (2 ^ lg) r V' X1 Y1 Z1 =
      Ok (romixH bm ig (2 ^ lg) X, Y', Z') /\
    length V' = length V /\ length Y' = (32 * r)%nat /\ length Z' = 16%nat.
Proof.
  intros BM BL IG Hlg HV HX HY HZ.
  assert (2 ^ lg < 2 ^ 64) as HN by (apply N.pow_lt_mono_r; lia).
  pose proof (pow2_half lg ltac:(lia)) as Hhalf.
  destruct (smix_fill_ok bmix intg bm ig r BM BL IG (N.to_nat (2 ^ (lg - 1)))
     (N.to_nat (2 ^ lg)) 0 (2 ^ lg) V X Y Z X)
     as (V' & Y1 & Z1 & E1 & HV' & HY' & HZ' & HVj); auto; try lia.
  assert (length (N.iter (2 ^ lg) bm X) = (32 * r)%nat) as LX2 by (apply (iter_len bm r BL); auto).
  destruct (smix_mix_ok bmix intg bm ig r BM BL IG
     (N.to_nat (2 ^ (lg - 1))) lg (N.to_nat (2 ^ lg)) 0 (2 ^ lg) V' (N.iter (2 ^ lg) bm X) Y1 Z1 X)
     as (Y2 & Z2 & E2 & HY2 & HZ2); auto; try lia.
  rewrite N.sub_0_r in E2.
  exists V', (N.iter (2 ^ lg) bm X), Y1, Z1, Y2, Z2. auto.
Qed.

Lemma load_facts B r : length B = (128 * r)%nat -> bytes_ok B ->
  (length B mod 4 = 0)%nat /\ Gw r (le_words B).
Proof.
  intros HB HBok.
  assert (length B mod 4 = 0)%nat as HB4
    by (rewrite HB; replace (128 * r)%nat with (32 * r * 4)%nat by lia; apply Nat.mod_mul; lia).
  split; auto. split; [|apply le_words_ok, HBok]. rewrite le_words_length by exact HB4.
  rewrite HB. replace (128 * r)%nat with (32 * r * 4)%nat by lia. apply Nat.div_mul; lia.
Qed.

(** The generic routine computes scryptROMix and leaves its scratch areas the
    same size; nothing is read or written outside B, V, XY. *)
Theorem crypto_scrypt_smix_correct B r lg V XY :
  (0 < r)%nat -> 1 <= lg < 64 -> length B = (128 * r)%nat -> bytes_ok B ->
  length V = (N.to_nat (2 ^ lg) * (32 * r))%nat -> length XY = (64 * r + 16)%nat ->
  exists V' XY', crypto_scrypt_smix B r (2 ^ lg) V XY = Ok (scryptROMix (2 ^ lg) B, V', XY') /\
    length V' = length V /\ length XY' = length XY.
Proof.
  intros Hr Hlg HB HBok HV HXY. unfold crypto_scrypt_smix.
  destruct (split_XY_ok XY r HXY) as (X & Y & Z & -> & EXY & LX & LY & LZ). cbn [bind].
  pose proof (load_words_ok (32 * r) [] B 0 [] X ltac:(lia) LX HBok eq_refl eq_refl) as EL.
  cbn [app] in EL. rewrite EL. cbn [bind].
  destruct (load_facts B r HB HBok) as [HB4 HG].
  destruct (smix_loops_ok blockmix_salsa8 integerify wbm (wig r) r lg V (le_words B) Y Z)
    as (V' & X1 & Y1 & Z1 & Y2 & Z2 & -> & E2 & HV' & HY2 & HZ2); auto.
  - intros; apply blockmix_salsa8_correct; auto.
  - intros; apply bmixH_length; auto using salsa20_8_words_length.
  - intros; apply integerify_ok; auto.
  - apply HG.
  - cbn [bind]. rewrite E2. cbn [bind].
    destruct (wromix_spec r lg (le_words B) Hr ltac:(lia) HG) as [E1 [G1 G2]].
    pose proof (store_words_ok (32 * r) [] (romixH wbm (wig r) (2 ^ lg) (le_words B)) [] B 0 G1 ltac:(lia) eq_refl eq_refl) as ES.
    cbn [app] in ES. rewrite ES. cbn [bind].
    rewrite E1, le_unwords_words by auto.
    exists V', (romixH wbm (wig r) (2 ^ lg) (le_words B) ++ Y2 ++ Z2). split; [reflexivity|]. split; [exact HV'|].
    rewrite !app_length. lia.
Qed.

Lemma scryptROMix_ok r lg B : (0 < r)%nat -> lg <= 64 -> length B = (128 * r)%nat -> bytes_ok B ->
  length (scryptROMix (2 ^ lg) B) = (128 * r)%nat /\ bytes_ok (scryptROMix (2 ^ lg) B).
Proof.
  intros Hr Hlg HB Hok. destruct (load_facts B r HB Hok) as [HB4 HG].
  destruct (wromix_spec r lg (le_words B) Hr Hlg HG) as [E1 [G1 G2]].
  rewrite le_unwords_words in E1 by auto. rewrite <- E1. rewrite le_unwords_length.
  split; [lia|apply le_unwords_ok].
Qed.
