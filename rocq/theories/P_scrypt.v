(** crypto_scrypt_internal computes scrypt. *)
From Verif Require Import Base SpecBytes SpecSHA SpecScrypt SpecScryptAPI M_endian P_endian M_sha256_tr M_simd
  M_sha256_hw M_sha256 P_sha256_tr P_sha256_hw P_sha256 M_smix P_salsa P_smix P_smix2 P_smix_sse2.

(* ---------------- lists of equal-sized blocks ---------------- *)
Lemma blk_split {A} (bs : list A) k d : (k < length bs)%nat ->
  exists a c, bs = a ++ nth k bs d :: c /\ length a = k.
Proof.
  intros H. exists (firstn k bs), (skipn (S k) bs). split.
  - rewrite <- (firstn_skipn k bs) at 1. f_equal.
    clear -H. revert k H; induction bs as [|b bs IH]; intros [|k] H; simpl in H; try lia; [reflexivity|].
    change (skipn k bs = nth k bs d :: skipn (S k) bs). apply IH. lia.
  - rewrite firstn_length. lia.
Qed.
Lemma blk_rd {A} (bs : list (list A)) L k d : Forall (fun b => length b = L) bs -> (k < length bs)%nat ->
  rd (concat bs) (k * L) L = Ok (nth k bs d).
Proof.
  intros HF Hk. destruct (blk_split bs k d Hk) as (a & c & E & Ha).
  assert (length (nth k bs d) = L) as HL by (apply (proj1 (Forall_forall _ _) HF), nth_In; exact Hk).
  rewrite E at 1. rewrite E in HF. apply Forall_app in HF. destruct HF as [Fa _].
  rewrite concat_app. cbn [concat].
  assert (length (concat a) = (k * L)%nat) as HC by (rewrite (concat_length_const _ L), Ha by exact Fa; reflexivity).
  rewrite rd_ok by (rewrite !app_length; lia). f_equal.
  rewrite <- HC, <- HL. apply sub_app_mid.
Qed.
Lemma set_nth_app {A} (a : list A) b c x : set_nth (a ++ b :: c) (length a) x = a ++ x :: c.
Proof. induction a as [|y a IH]; [reflexivity|]. cbn [app length set_nth]. rewrite IH. reflexivity. Qed.
Lemma blk_wr {A} (bs : list (list A)) L k x : Forall (fun b => length b = L) bs -> (k < length bs)%nat ->
  length x = L -> wr (concat bs) (k * L) x = Ok (concat (set_nth bs k x)).
Proof.
  intros HF Hk Hx. destruct (blk_split bs k [] Hk) as (a & c & E & Ha).
  assert (length (nth k bs []) = L) as HL by (apply (proj1 (Forall_forall _ _) HF), nth_In; exact Hk).
  rewrite E in HF. pose proof HF as HF'. apply Forall_app in HF. destruct HF as [Fa _].
  assert (length (concat a) = (k * L)%nat) as HC by (rewrite (concat_length_const _ L), Ha by exact Fa; reflexivity).
  assert (set_nth bs k x = a ++ x :: c) as -> by (rewrite E; rewrite <- Ha at 2; apply set_nth_app).
  rewrite E.
  rewrite !concat_app. cbn [concat].
  rewrite wr_ok by (rewrite !app_length; lia). f_equal. rewrite <- HC. apply upd_app. lia.
Qed.
Lemma Forall_set_nth {A} (P : A -> Prop) l k x : Forall P l -> P x -> Forall P (set_nth l k x).
Proof.
  intros H Hx. revert k; induction H as [|y l Hy Hl IH]; intros [|k]; cbn [set_nth]; constructor; auto.
Qed.

Lemma mapi_length {A B} (f : N -> A -> B) j l : length (mapi f j l) = length l.
Proof. revert j; induction l as [|x l IH]; intros j; cbn [mapi length]; auto. Qed.
Lemma nth_mapi {A B} (f : N -> A -> B) l d d' : forall j k, (k < length l)%nat ->
  nth k (mapi f j l) d' = f (j + N.of_nat k) (nth k l d).
Proof.
  induction l as [|x l IH]; intros j k H; simpl in H; [lia|]. cbn [mapi].
  destruct k as [|k]; cbn [nth]; [f_equal; lia|]. rewrite IH by lia. f_equal. lia.
Qed.
Lemma mapi_ext {A B} (f g : N -> A -> B) l : forall j,
  (forall k x, In x l -> j <= k < j + N.of_nat (length l) -> f k x = g k x) -> mapi f j l = mapi g j l.
Proof.
  induction l as [|x l IH]; intros j H; cbn [mapi]; [reflexivity|]. f_equal.
  - apply H; [left; reflexivity|]. cbn [length]. lia.
  - apply IH. intros k y Hy Hk. apply H; [right; exact Hy|]. cbn [length]. lia.
Qed.
Lemma mapi_map {A B} (f : A -> B) j l : mapi (fun _ => f) j l = map f l.
Proof. revert j; induction l as [|x l IH]; intros j; cbn [mapi map]; f_equal; auto. Qed.

(* ---------------- PBKDF2 facts ---------------- *)
Lemma pbkdf2_facts P Sa c n : length (pbkdf2 P Sa c n) = n /\ bytes_ok (pbkdf2 P Sa c n).
Proof.
  split; unfold pbkdf2.
  - rewrite firstn_length. rewrite (flat_map_concat_map _ (seq 1 _)), (concat_length_const _ 32).
    + rewrite map_length, seq_length. pose proof (Nat.div_mod (n + 31) 32 ltac:(lia)).
      pose proof (Nat.mod_upper_bound (n + 31) 32 ltac:(lia)). lia.
    + apply Forall_map, Forall_forall. intros; apply pbkdf2_T_length.
  - apply Forall_firstn. apply Forall_flat_map. apply Forall_forall. intros; apply pbkdf2_T_ok.
Qed.

(* ---------------- the parameter checks ---------------- *)
Lemma land_pred_pow2 N_ : 2 <= N_ < 2 ^ 64 ->
  (N.land N_ (w64 (2 ^ 64 + N_ - 1)) = 0 <-> exists lg, 1 <= lg < 64 /\ N_ = 2 ^ lg).
Proof.
  intros HN.
  assert (w64 (2 ^ 64 + N_ - 1) = N_ - 1) as ->.
  { rewrite w64_mod. replace (2 ^ 64 + N_ - 1) with (N_ - 1 + 1 * 2 ^ 64) by lia.
    rewrite N.mod_add by lia. apply N.mod_small. lia. }
  split.
  - intros HL. exists (N.log2 N_).
    assert (1 <= N.log2 N_ < 64) as Hlg.
    { split; [apply N.log2_le_pow2; lia|apply N.log2_lt_pow2; lia]. }
    split; [exact Hlg|].
    destruct (N.log2_spec N_ ltac:(lia)) as [H1 H2]. rewrite N.pow_succ_r' in H2.
    set (k := N.log2 N_) in *.
    destruct (N.eq_dec N_ (2 ^ k)) as [E|E]; [exact E|exfalso].
    assert (N.testbit (N.land N_ (N_ - 1)) k = true) as HT.
    { rewrite N.land_spec. 
      assert (forall m, 2 ^ k <= m -> m < 2 * 2 ^ k -> N.testbit m k = true) as HB.
      { intros m M1 M2. rewrite N.testbit_true.
        replace (m / 2 ^ k) with 1; [reflexivity|].
        apply (N.div_unique m (2 ^ k) 1 (m - 2 ^ k)); lia. }
      rewrite !HB by lia. reflexivity. }
    rewrite HL, N.bits_0 in HT. discriminate.
  - intros (lg & Hlg & ->). rewrite <- N.pred_sub, <- N.ones_equiv, N.land_ones.
    apply N.mod_same, N.pow_nonzero. lia.
Qed.

Lemma div_div_lt M a p r : 0 < p -> 0 < a -> (M / a / p <? r) = (M <? a * r * p).
Proof.
  intros Hp Ha. rewrite N.div_div by lia. apply eq_true_iff_eq. rewrite !N.ltb_lt.
  split; intros H.
  - pose proof (N.mul_succ_div_gt M (a * p) ltac:(lia)). nia.
  - apply N.div_lt_upper_bound; [lia|]. nia.
Qed.
Lemma div_lt_1 M a r : 0 < a -> (M / a <? r) = (M <? a * r).
Proof.
  intros Ha. rewrite <- (N.div_1_r (M / a)). rewrite div_div_lt by lia. f_equal. lia.
Qed.

Definition size_bits (szb : N) : Prop := szb = 32 \/ szb = 64.

Lemma scrypt_checks_spec szb N_ r p buflen :
  size_bits szb -> N_ < 2 ^ 64 -> r < 2 ^ 32 -> p < 2 ^ 32 -> buflen < 2 ^ szb ->
  (scrypt_checks szb N_ r p buflen = None <-> scrypt_valid szb N_ r p buflen).
Proof.
  intros Hs HN Hr Hp Hb. unfold scrypt_checks.
  assert (r * p < 2 ^ 64) as Hrp by nia.
  rewrite (w64_small (r * p)) by exact Hrp. change (N.shiftl 1 30) with (2 ^ 30).
  assert (SIZE_MAX szb + 1 = 2 ^ szb) as HSM by (unfold SIZE_MAX; pose proof (N.pow_nonzero 2 szb ltac:(lia)); lia).
  destruct (N.eqb_spec r 0) as [Er|Er]; [split; [discriminate|intros []; lia]|].
  destruct (N.eqb_spec p 0) as [Ep|Ep]; [split; [discriminate|intros []; lia]|]. cbn [orb].
  assert ((0xffffffff <? SIZE_MAX szb) && ((2 ^ 32 - 1) * 32 <? buflen) = ((2 ^ 32 - 1) * 32 <? buflen)) as ->.
  { destruct Hs as [-> | ->]; [|reflexivity]. symmetry. change (0xffffffff <? SIZE_MAX 32) with false. cbn [andb].
    apply N.ltb_ge. lia. }
  destruct (N.ltb_spec ((2 ^ 32 - 1) * 32) buflen) as [E1|E1]; [split; [discriminate|intros []; lia]|].
  destruct (N.leb_spec (2 ^ 30) (r * p)) as [E2|E2]; [split; [discriminate|intros []; lia]|].
  destruct (N.ltb_spec N_ 2) as [E3|E3].
  { rewrite orb_true_r. split; [discriminate|]. intros [_ _ (lg & Hlg & ->)].
    assert (2 ^ 1 <= 2 ^ lg) by (apply N.pow_le_mono_r; lia). lia. }
  rewrite orb_false_r. pose proof (land_pred_pow2 N_ ltac:(lia)) as HP.
  destruct (N.eqb_spec (N.land N_ (w64 (2 ^ 64 + N_ - 1))) 0) as [E4|E4]; cbn [negb].
  2: { split; [discriminate|]. intros [_ _ HX]. apply HP in HX. contradiction. }
  apply HP in E4. rewrite !div_div_lt by lia.
  assert ((SIZE_MAX szb / 256 <=? 0xffffffff) && ((SIZE_MAX szb - 64) / 256 <? r) = (SIZE_MAX szb <? 256 * r + 64)) as ->.
  { destruct Hs as [-> | ->].
    - change (SIZE_MAX 32 / 256 <=? 0xffffffff) with true. cbn [andb]. rewrite div_lt_1 by lia.
      apply eq_true_iff_eq. rewrite !N.ltb_lt. change (SIZE_MAX 32) with (2 ^ 32 - 1). lia.
    - change (SIZE_MAX 64 / 256 <=? 0xffffffff) with false. cbn [andb]. symmetry. apply N.ltb_ge.
      change (SIZE_MAX 64) with (2 ^ 64 - 1). lia. }
  destruct (N.ltb_spec (SIZE_MAX szb) (128 * r * p)) as [E5|E5]; cbn [orb]; [split; [discriminate|intros []; lia]|].
  destruct (N.ltb_spec (SIZE_MAX szb) (256 * r + 64)) as [E6|E6]; cbn [orb]; [split; [discriminate|intros []; lia]|].
  destruct (N.ltb_spec (SIZE_MAX szb) (128 * N_ * r)) as [E7|E7]; [split; [discriminate|intros []; lia]|].
  split; [intros _|reflexivity]. constructor; auto; lia.
Qed.

(** The three allocation sizes and the PBKDF2 length are exact, also with the
    slack of the malloc() build variants. *)
Lemma scrypt_sizes szb N_ r p buflen : size_bits szb -> scrypt_valid szb N_ r p buflen ->
  size_B szb r p = 128 * r * p /\ size_XY szb r = 256 * r + 64 /\ size_V szb r N_ = 128 * r * N_ /\
  wsz szb (wsz szb (p * 128) * r) = p * 128 * r /\
  128 * r * p + 63 < 2 ^ szb /\ 256 * r + 64 + 63 < 2 ^ szb /\ 128 * r * N_ + 63 < 2 ^ szb /\
  p * 128 * r <= 32 * (2 ^ 32 - 1).
Proof.
  intros Hs [Vr Vp (lg & Hlg & EN) Vrp Vl VB VXY VV]. unfold size_B, size_XY, size_V, wsz.
  assert (1 <= N_) as HN1 by (subst N_; pose proof (N.pow_nonzero 2 lg); lia).
  assert (128 * r < 2 ^ szb) by nia. assert (p * 128 < 2 ^ szb) by nia.
  assert (2 ^ szb <= 2 ^ 64) by (destruct Hs as [-> | ->]; apply N.pow_le_mono_r; lia).
  rewrite (N.mod_small (128 * r)) by assumption. rewrite (N.mod_small (p * 128)) by assumption.
  rewrite (N.mod_small (256 * r)) by lia. rewrite (w64_small (128 * r * N_)) by lia.
  rewrite !N.mod_small by lia.
  assert (exists q, 2 ^ szb = 256 * q) as [q Eq] by (destruct Hs as [-> | ->]; [exists (2 ^ 24)|exists (2 ^ 56)]; reflexivity).
  repeat split; try lia.
Qed.

(* ---------------- mixing all blocks ---------------- *)
(** [smix] runs ROMix on the block it is given. *)
Definition smix_correct (smix : smix_fn) : Prop := forall B r lg V XY,
  (0 < r)%nat -> 1 <= lg < 64 -> length B = (128 * r)%nat -> bytes_ok B ->
  length V = (N.to_nat (2 ^ lg) * (32 * r))%nat -> length XY = (64 * r + 16)%nat ->
  exists V' XY', smix B r (2 ^ lg) V XY = Ok (scryptROMix (2 ^ lg) B, V', XY') /\
    length V' = length V /\ length XY' = length XY.

(** The same for fixed sizes of the block and of the two scratch areas. *)
Definition smix_correct_at (smix : smix_fn) (r : nat) (lg : N) (lV : nat) (gXY : list N -> Prop) : Prop := forall B V XY,
  length B = (128 * r)%nat -> bytes_ok B -> length V = lV -> gXY XY ->
  exists V' XY', smix B r (2 ^ lg) V XY = Ok (scryptROMix (2 ^ lg) B, V', XY') /\
    length V' = length V /\ gXY XY'.
Lemma smix_correct_at_of smix r lg : smix_correct smix -> (0 < r)%nat -> 1 <= lg < 64 ->
  smix_correct_at smix r lg (N.to_nat (2 ^ lg) * (32 * r)) (fun XY => length XY = (64 * r + 16)%nat).
Proof.
  intros H Hr Hlg B V XY HB Hok HV HXY. destruct (H B r lg V XY) as (V' & XY' & E & L1 & L2); auto.
  exists V', XY'. rewrite L2. auto.
Qed.

Lemma mix_count_0 j : mix_count 0 j = 0.
Proof. unfold mix_count. destruct (N.ltb_spec j (2 ^ 25)); auto. apply N.div_small. lia. Qed.
Lemma mix_count_step n j : mix_count (n + 1) j = mix_count n j + (if n mod 2 ^ 25 =? j then 1 else 0).
Proof.
  unfold mix_count. pose proof (N.mod_lt n (2 ^ 25) ltac:(lia)) as HM.
  destruct (N.ltb_spec j (2 ^ 25)) as [Hj|Hj]; [|destruct (N.eqb_spec (n mod 2 ^ 25) j); lia].
  pose proof (N.div_mod n (2 ^ 25) ltac:(lia)) as HD.
  set (q := n / 2 ^ 25) in *. set (m := n mod 2 ^ 25) in *.
  destruct (N.eqb_spec m j) as [E|E].
  - rewrite <- (N.div_unique (n + 1 + (2 ^ 25 - 1) - j) (2 ^ 25) (q + 1) 0) by lia.
    rewrite <- (N.div_unique (n + (2 ^ 25 - 1) - j) (2 ^ 25) q (2 ^ 25 - 1)) by lia. reflexivity.
  - destruct (N.lt_ge_cases m j) as [L|L].
    + rewrite <- (N.div_unique (n + 1 + (2 ^ 25 - 1) - j) (2 ^ 25) q (m + 2 ^ 25 - j)) by lia.
      rewrite <- (N.div_unique (n + (2 ^ 25 - 1) - j) (2 ^ 25) q (m + 2 ^ 25 - 1 - j)) by lia. lia.
    + rewrite <- (N.div_unique (n + 1 + (2 ^ 25 - 1) - j) (2 ^ 25) (q + 1) (m - j)) by lia.
      rewrite <- (N.div_unique (n + (2 ^ 25 - 1) - j) (2 ^ 25) (q + 1) (m - j - 1)) by lia. lia.
Qed.

Definition mixed (f : bytes -> bytes) (n : N) (bs : list bytes) : list bytes :=
  mapi (fun j b => N.iter (mix_count n j) f b) 0 bs.
Lemma mixed_0 f bs : mixed f 0 bs = bs.
Proof.
  unfold mixed. rewrite (mapi_ext _ (fun _ b => b)).
  - rewrite mapi_map. apply map_id.
  - intros k x _ _. rewrite mix_count_0. reflexivity.
Qed.
Lemma mixed_length f n bs : length (mixed f n bs) = length bs.
Proof. apply mapi_length. Qed.
Lemma mixed_step f n bs k : k = N.to_nat (n mod 2 ^ 25) -> (k < length bs)%nat ->
  set_nth (mixed f n bs) k (f (nth k (mixed f n bs) [])) = mixed f (n + 1) bs.
Proof.
  intros Ek Hk. apply (nth_ext _ _ [] []); [rewrite set_nth_length, !mixed_length; reflexivity|].
  intros i Hi. rewrite set_nth_length, mixed_length in Hi.
  unfold mixed at 3. rewrite (nth_mapi _ bs []) by exact Hi. rewrite N.add_0_l, mix_count_step.
  destruct (Nat.eq_dec k i) as [->|Hne].
  - rewrite nth_set_nth_eq by (rewrite mixed_length; exact Hk).
    unfold mixed. rewrite (nth_mapi _ bs []) by exact Hi. rewrite N.add_0_l.
    destruct (N.eqb_spec (n mod 2 ^ 25) (N.of_nat i)) as [_|E]; [|lia].
    rewrite niter_succ. reflexivity.
  - rewrite nth_set_nth_ne by exact Hne.
    unfold mixed. rewrite (nth_mapi _ bs []) by exact Hi. rewrite N.add_0_l.
    destruct (N.eqb_spec (n mod 2 ^ 25) (N.of_nat i)) as [E|_]; [lia|].
    rewrite N.add_0_r. reflexivity.
Qed.

Lemma w32_mul128 i : w32 (i * 128) = 128 * (i mod 2 ^ 25).
Proof.
  rewrite w32_mod. change (2 ^ 32) with (2 ^ 25 * 128). rewrite N.mul_mod_distr_r by lia. lia.
Qed.
Definition blocks_good (L : nat) (bs : list bytes) : Prop := Forall (fun b => length b = L /\ bytes_ok b) bs.
Lemma blocks_good_len L bs : blocks_good L bs -> Forall (fun b => length b = L) bs.
Proof. apply Forall_impl. intros a []; auto. Qed.

Lemma smix_all_ok szb smix r p lg lV gXY : smix_correct_at smix (N.to_nat r) lg lV gXY -> size_bits szb ->
  0 < r -> p < 2 ^ 32 -> 128 * r * p < 2 ^ szb -> lg < 64 ->
  forall n fuel i bs V XY, (n <= fuel)%nat -> i + N.of_nat n = p ->
  length bs = N.to_nat p -> blocks_good (N.to_nat (128 * r)) (mixed (scryptROMix (2 ^ lg)) i bs) ->
  length V = lV -> gXY XY ->
  smix_all szb smix fuel i p r (2 ^ lg) (concat (mixed (scryptROMix (2 ^ lg)) i bs)) V XY =
    Ok (concat (mixed (scryptROMix (2 ^ lg)) p bs)) /\
  blocks_good (N.to_nat (128 * r)) (mixed (scryptROMix (2 ^ lg)) p bs).
Proof.
  intros HS Hsz Hr Hp HB Hlg. induction n as [|n IH]; intros fuel i bs V XY Hf Hi Hbs HG HV HXY.
  - assert (i = p) as -> by lia.
    assert (p <? p = false) as E by apply N.ltb_irrefl.
    destruct fuel; cbn [smix_all]; rewrite E; auto.
  - destruct fuel as [|fuel]; [lia|]. cbn [smix_all].
    destruct (N.ltb_spec i p) as [Hlt|]; [|lia].
    set (L := N.to_nat (128 * r)) in *.
    set (k := N.to_nat (i mod 2 ^ 25)).
    assert (i mod 2 ^ 25 <= i) as Hm by (apply N.mod_le; lia).
    assert (k < length bs)%nat as Hk by (unfold k; lia).
    assert (N.to_nat (wsz szb (w32 (i * 128) * r)) = (k * L)%nat) as ->.
    { rewrite w32_mul128. unfold wsz. rewrite N.mod_small by nia. unfold k, L. lia. }
    pose proof (blocks_good_len _ _ HG) as HGl.
    assert (rd (concat (mixed (scryptROMix (2 ^ lg)) i bs)) (k * L) L = Ok (nth k (mixed (scryptROMix (2 ^ lg)) i bs) [])) as ->
      by (apply blk_rd; rewrite ?mixed_length; auto). cbn [bind].
    assert (length (nth k (mixed (scryptROMix (2 ^ lg)) i bs) []) = L /\
      bytes_ok (nth k (mixed (scryptROMix (2 ^ lg)) i bs) [])) as [HL HO].
    { apply (proj1 (Forall_forall _ _) HG), nth_In. rewrite mixed_length. exact Hk. }
    destruct (HS (nth k (mixed (scryptROMix (2 ^ lg)) i bs) []) V XY) as (V' & XY' & -> & LV & LXY);
      auto; try lia. cbn [bind].
    destruct (scryptROMix_ok (N.to_nat r) lg (nth k (mixed (scryptROMix (2 ^ lg)) i bs) [])) as [RL RO];
      auto; try lia.
    rewrite blk_wr; [|exact HGl|rewrite mixed_length; exact Hk|rewrite RL; unfold L; lia]. cbn [bind].
    rewrite mixed_step by auto. rewrite (w32_small (i + 1)) by lia.
    apply IH; try lia; auto.
    rewrite <- (mixed_step _ i bs k) by auto. apply Forall_set_nth; [exact HG|].
    split; [rewrite RL; unfold L; lia|exact RO].
Qed.

(** The result for every valid parameter set. *)
Theorem crypto_scrypt_internal_exact szb hw junk smix passwd salt N_ r p buf buflen unmap :
  smix_correct smix -> size_bits szb -> p < 2 ^ 32 -> scrypt_valid szb N_ r p buflen ->
  bytes_ok passwd -> bytes_ok salt -> (N.to_nat buflen <= length buf)%nat ->
  crypto_scrypt_internal szb hw junk smix (mk_alloc true true true unmap) passwd salt N_ r p buf buflen =
    Ok (if unmap then SC_OK else SC_MUNMAP,
        scrypt_wrapping passwd salt N_ r p (N.to_nat buflen) ++ skipn (N.to_nat buflen) buf).
Proof.
  intros HS Hs Hp32 Hv HP HSa Hbuf. unfold crypto_scrypt_internal.
  destruct (scrypt_sizes _ _ _ _ _ Hs Hv) as (S1 & S2 & S3 & S4 & _ & _ & _ & S5).
  pose proof Hv as [Vr Vp (lg & Hlg & EN) Vrp Vl VB VXY VV].
  assert (scrypt_checks szb N_ r p buflen = None) as ->.
  { assert (N_ < 2 ^ 64) by (subst N_; apply N.pow_lt_mono_r; lia).
    assert (r < 2 ^ 32) by nia.
    assert (buflen < 2 ^ szb \/ 2 ^ szb <= buflen) as [Hb|Hb] by lia;
      [apply scrypt_checks_spec; auto|].
    (* buflen out of size_t range: only the explicit checks matter *)
    assert (scrypt_checks szb N_ r p 0 = None) as E0.
    { apply scrypt_checks_spec; auto; [destruct Hs as [-> | ->]; lia|]. constructor; eauto; lia. }
    revert E0. unfold scrypt_checks.
    destruct ((r =? 0) || (p =? 0)); auto.
    destruct (N.ltb_spec ((2 ^ 32 - 1) * 32) 0) as [|_]; [lia|].
    destruct (N.ltb_spec ((2 ^ 32 - 1) * 32) buflen) as [|_]; [lia|]. auto. }
  cbn [al_B al_XY al_V al_unmap negb]. rewrite S1, S2, S3, S4.
  assert (N.to_nat (128 * r * p) = N.to_nat (p * 128 * r)) as E1 by lia. rewrite E1.
  rewrite PBKDF2_SHA256_correct; auto; [|rewrite scratch_bytes_length; lia]. cbn [bind].
  rewrite skipn_all2 by (rewrite scratch_bytes_length; lia). rewrite app_nil_r.
  destruct (pbkdf2_facts passwd salt 1 (N.to_nat (p * 128 * r))) as [BL BO].
  set (B := pbkdf2 passwd salt 1 (N.to_nat (p * 128 * r))) in *.
  set (L := N.to_nat (128 * r)).
  assert (0 < L)%nat as HL by (unfold L; lia).
  destruct (chunks_mult L (N.to_nat p) B HL ltac:(unfold L; lia)) as [C1 C2].
  assert (blocks_good L (chunks L B)) as HG.
  { unfold blocks_good. rewrite <- (concat_chunks L B HL) in BO. clear - C2 BO.
    induction C2 as [|c cs Hc _ IH]; constructor; cbn [concat] in BO; apply Forall_app in BO; tauto. }
  assert ((256 * r + 64) / 4 = 64 * r + 16) as E2 by (symmetry; apply (N.div_unique _ 4 _ 0); lia).
  assert (128 * r * N_ / 4 = N_ * (32 * r)) as E3 by (symmetry; apply (N.div_unique _ 4 _ 0); lia).
  rewrite E2, E3.
  destruct (smix_all_ok szb smix r p lg _ _ (smix_correct_at_of smix (N.to_nat r) lg HS ltac:(lia) Hlg)
     Hs Vr Hp32 VB (proj2 Hlg) (N.to_nat p) (N.to_nat p) 0 (chunks L B)
     (scratch_words junk (N.to_nat (N_ * (32 * r)))) (scratch_words junk (N.to_nat (64 * r + 16)))) as [E HG2];
    rewrite ?mixed_0; auto; try lia; try (rewrite scratch_words_length; subst N_; lia).
  rewrite mixed_0, concat_chunks, <- EN in E by exact HL. rewrite E. cbn [bind]. rewrite <- EN in HG2.
  pose proof (blocks_good_len _ _ HG2) as HGL2.
  assert (length (concat (mixed (scryptROMix N_) p (chunks L B))) = N.to_nat (p * 128 * r)) as LB.
  { rewrite (concat_length_const _ L) by exact HGL2. rewrite mixed_length, C1. unfold L. lia. }
  rewrite rd_all by (symmetry; exact LB). cbn [bind].
  rewrite PBKDF2_SHA256_correct; auto; try lia.
  apply Forall_concat. eapply Forall_impl; [|exact HG2]. intros a []; auto.
Qed.

Lemma mix_count_1 p j : p <= 2 ^ 25 -> j < p -> mix_count p j = 1.
Proof.
  intros Hp Hj. unfold mix_count. destruct (N.ltb_spec j (2 ^ 25)); [|lia].
  symmetry. apply (N.div_unique _ (2 ^ 25) 1 (p - 1 - j)); lia.
Qed.
Lemma scrypt_wrapping_small P Sa N_ r p dk : 0 < r -> p <= 2 ^ 25 ->
  scrypt_wrapping P Sa N_ r p dk = scrypt P Sa N_ r p dk.
Proof.
  intros Hr Hp. unfold scrypt_wrapping, scrypt. cbv zeta. f_equal.
  destruct (pbkdf2_facts P Sa 1 (N.to_nat (p * 128 * r))) as [BL _].
  destruct (chunks_mult (N.to_nat (128 * r)) (N.to_nat p) (pbkdf2 P Sa 1 (N.to_nat (p * 128 * r)))) as [C1 _];
    [lia|rewrite BL; lia|].
  rewrite flat_map_concat_map. f_equal. rewrite <- (mapi_map _ 0). apply mapi_ext.
  intros k x _ Hk. rewrite C1 in Hk. rewrite mix_count_1 by lia. reflexivity.
Qed.
