From Verif Require Import Base SpecText M_humansize.

Lemma dec_val_app a c : dec_val (a ++ [c]) = 10 * dec_val a + (c - 48).
Proof. unfold dec_val. rewrite fold_left_app. reflexivity. Qed.
Lemma dec_fuel_ok f : forall n, n < 2 ^ (N.of_nat f) ->
  dec_fuel f n <> [] \/ f = O.
Proof. destruct f; auto. intros n _. left. cbn [dec_fuel]. destruct (n <? 10); [discriminate|]. destruct (dec_fuel f (n/10)); discriminate. Qed.
Lemma dec_fuel_decimal f : forall n, n < 2 ^ (N.of_nat f) -> f <> O -> decimal n (dec_fuel f n).
Proof.
  induction f as [|f IH]; intros n Hn Hf; [contradiction|]. cbn [dec_fuel].
  destruct (N.ltb_spec n 10) as [H|H].
  - repeat split; [discriminate| | |].
    + cbn [forallb]. unfold is_digit. destruct (N.leb_spec 48 (48+n)); [|lia]. destruct (N.leb_spec (48+n) 57); [reflexivity|lia].
    + unfold dec_val. cbn [fold_left]. lia.
    + cbn [hd]. intros E. f_equal. exact E.
  - assert (n / 10 < 2 ^ N.of_nat f) as H1.
    { apply N.div_lt_upper_bound; [lia|]. rewrite Nat2N.inj_succ, N.pow_succ_r' in Hn. lia. }
    assert (f <> O) as H2.
    { intros ->. cbn in Hn. lia. }
    destruct (IH (n / 10) H1 H2) as (A & B & C & D).
    assert (n mod 10 < 10) as H3 by (apply N.mod_lt; lia).
    repeat split.
    + destruct (dec_fuel f (n / 10)); discriminate.
    + rewrite forallb_app, B. cbn [forallb]. unfold is_digit.
      destruct (N.leb_spec 48 (48+n mod 10)); [|lia]. destruct (N.leb_spec (48+n mod 10) 57); [reflexivity|lia].
    + rewrite dec_val_app, C. pose proof (N.div_mod n 10). lia.
    + destruct (dec_fuel f (n / 10)) as [|h t] eqn:E; [contradiction|]. cbn [app hd]. intros Eh.
      rewrite (D Eh) in C. unfold dec_val in C. cbn in C.
      assert (1 <= n / 10) by (apply N.div_le_lower_bound; lia). lia.
Qed.
Lemma print_dec_decimal n : decimal n (print_dec n).
Proof.
  unfold print_dec. apply dec_fuel_decimal; [|discriminate].
  destruct (N.eq_dec n 0) as [->|H]; [reflexivity|].
  rewrite Nat2N.inj_succ, N2Nat.id. apply N.log2_spec. lia.
Qed.

Lemma hs_loop_spec size : 1000 <= size -> size < 2 ^ 64 ->
  exists k q, hs_loop 64 (size / 100) 1 = Ok (q, N.to_nat k) /\ 1 <= k <= 6 /\
    q * (1000 ^ k / 10) <= size < (q + 1) * (1000 ^ k / 10) /\ 10 <= q < 10000.
Proof.
  intros H1 H2. 
  assert (forall a f c, 10000 <= a -> hs_loop (S f) a c = hs_loop f (a / 1000) (S c)) as HS.
  { intros a f c Ha. cbn [hs_loop]. destruct (N.leb_spec 10000 a); [reflexivity|lia]. }
  assert (forall a f c, a < 10000 -> hs_loop f a c = Ok (a, c)) as HE.
  { intros a f c Ha. destruct f; cbn [hs_loop]; destruct (N.leb_spec 10000 a); try reflexivity; lia. }
  pose proof (N.div_mod size 100 ltac:(lia)) as D0. pose proof (N.mod_lt size 100 ltac:(lia)) as M0.
  remember (size / 100) as a0 eqn:E0. clear E0. remember (size mod 100) as m0 eqn:Em0. clear Em0.
  assert (forall c k a b, 10 <= a -> N.to_nat k = c -> 1 <= k <= 6 -> b = 1000 ^ k / 10 -> a * b <= size < (a + 1) * b -> a < 1000 ^ (7 - k) ->
    forall f, (7 - N.to_nat k <= f)%nat -> 
    exists k q, hs_loop f a c = Ok (q, N.to_nat k) /\ 1 <= k <= 6 /\
    q * (1000 ^ k / 10) <= size < (q + 1) * (1000 ^ k / 10) /\ 10 <= q < 10000) as HL.
  { intros c k a b Ha <- Hk. remember (6 - N.to_nat k)%nat as d eqn:Ed. revert k a b Ha Hk Ed.
    induction d as [|d IH]; intros k a b Ha Hk Ed Eb Hb Hlt f Hf.
    - assert (k = 6) as -> by lia. change (1000 ^ (7 - 6)) with 1000 in Hlt. exists 6, a.
      rewrite HE by lia. repeat split; try lia.
    - destruct (N.lt_ge_cases a 10000) as [Hc|Hc].
      + exists k, a. rewrite HE by lia. subst b. repeat split; try lia.
      + destruct f as [|f]; [lia|]. rewrite HS by lia.
        assert (S (N.to_nat k) = N.to_nat (k + 1)) as -> by lia.
        assert (1000 ^ (k + 1) / 10 = 1000 * b) as Eb'.
        { subst b. rewrite N.pow_add_r. change (1000 ^ 1) with 1000. rewrite N.mul_comm.
          assert (exists j, k = j + 1) as [j ->] by (exists (k - 1); lia). rewrite N.pow_add_r. change (1000 ^ 1) with (100 * 10).
          rewrite !N.mul_assoc, !N.div_mul by lia. lia. }
        pose proof (N.div_mod a 1000 ltac:(lia)) as D1. pose proof (N.mod_lt a 1000 ltac:(lia)) as M1.
        apply (IH (k + 1) (a / 1000) (1000 * b)); try lia.
        * nia.
        * assert (1000 ^ (7 - k) = 1000 * 1000 ^ (7 - (k + 1))) as E7.
          { replace (7 - k) with (N.succ (7 - (k + 1))) by lia. apply N.pow_succ_r'. }
          apply N.div_lt_upper_bound; lia. }
  apply (HL 1%nat 1 a0 100); try lia; try reflexivity.
  change (1000 ^ (7 - 1)) with 1000000000000000000. lia.
Qed.
Lemma rd_prefix k : 1 <= k <= 6 -> rd hs_prefixes (N.to_nat k) 1 = Ok [si_prefix k].
Proof.
  intros H. assert (k = 1 \/ k = 2 \/ k = 3 \/ k = 4 \/ k = 5 \/ k = 6) as HK by lia.
  destruct HK as [->|[->|[->|[->|[->| ->]]]]]; reflexivity.
Qed.
Lemma pow_le_3 a b : a <= b -> 1000 ^ a <= 1000 ^ b.
Proof. intros H. apply N.pow_le_mono_r; lia. Qed.
Lemma pow1000_10 k : 1 <= k -> 1000 ^ k = 10 * (1000 ^ k / 10) /\ 0 < 1000 ^ k / 10.
Proof.
  intros H. assert (exists j, k = j + 1) as [j ->] by (exists (k - 1); lia). rewrite N.pow_add_r. change (1000 ^ 1) with (100 * 10).
  rewrite N.mul_assoc, N.div_mul by lia. pose proof (N.pow_nonzero 1000 j ltac:(lia)). lia.
Qed.
Lemma quot_max a q b size : a * b <= size -> size < (q + 1) * b -> a <= q.
Proof.
  intros H1 H2. destruct (N.le_gt_cases a q) as [H|H]; [exact H|exfalso].
  pose proof (N.mul_le_mono_r (q + 1) a b ltac:(lia)). lia.
Qed.
Theorem humansize_spec size : size < 2 ^ 64 ->
  exists s v, humansize true size = Ok (Some s) /\ human v s /\ v <= size /\
    (forall v' s', human v' s' -> v' <= size -> v' <= v).
Proof.
  intros H. unfold humansize. destruct (N.ltb_spec size 1000) as [Hs|Hs].
  - cbn [bind]. exists (print_dec size ++ [32; 66]), size. split; [reflexivity|]. split; [|split; [lia|auto]].
    apply (human_B _ _ size (print_dec size)); auto; [lia|apply print_dec_decimal].
  - destruct (hs_loop_spec size Hs H) as (k & q & E & Hk & Hq & Hq2). rewrite E. cbn [bind]. rewrite rd_prefix by exact Hk.
    cbn [bind]. cbv zeta. cbn [sel nth].
    destruct (pow1000_10 k (proj1 Hk)) as [EP EP0]. set (b := 1000 ^ k / 10) in *.
    pose proof (N.div_mod q 10 ltac:(lia)) as Dq. pose proof (N.mod_lt q 10 ltac:(lia)) as Mq.
    remember (q / 10) as qd eqn:Eqd. remember (q mod 10) as qm eqn:Eqm. clear Eqd Eqm.
    assert (forall k', k' <= k -> k' <> k -> 1000 * 1000 ^ k' <= 1000 ^ k) as Hlo.
    { intros k' H1 H2. rewrite <- N.pow_succ_r'. apply pow_le_3. lia. }
    assert (forall k', k < k' -> size < 1000 ^ k') as Hhi.
    { intros k' H1. apply N.lt_le_trans with (1000 ^ (N.succ k)); [rewrite N.pow_succ_r'; nia|apply pow_le_3; lia]. }
    eexists _, (if q <? 100 then q * b else qd * 1000 ^ k). split; [reflexivity|].
    destruct (N.ltb_spec q 100) as [Hc|Hc].
    + split; [|split].
      * apply (human_dec _ _ k qd qm (print_dec qd) (print_dec qm)); auto using print_dec_decimal; try lia.
      * lia.
      * intros v' s' [n d Hn _ -> _|k' X d Hk' HX _ -> _|k' I F d e Hk' HI HF _ _ -> _] Hv.
        -- pose proof (pow_le_3 1 k (proj1 Hk)) as HP. change (1000 ^ 1) with 1000 in HP. nia.
        -- destruct (N.lt_trichotomy k' k) as [HC|[->|HC]].
           ++ specialize (Hlo k' ltac:(lia) ltac:(lia)). nia.
           ++ exfalso. nia.
           ++ specialize (Hhi k' HC). exfalso. nia.
        -- destruct (N.lt_trichotomy k' k) as [HC|[->|HC]].
           ++ specialize (Hlo k' ltac:(lia) ltac:(lia)). destruct (pow1000_10 k' (proj1 Hk')) as [EQ _]. nia.
           ++ fold b in Hv |- *. apply N.mul_le_mono_r. exact (quot_max _ _ _ _ Hv (proj2 Hq)).
           ++ specialize (Hhi k' HC). destruct (pow1000_10 k' (proj1 Hk')) as [EQ _]. exfalso. nia.
    + split; [|split].
      * apply (human_int _ _ k qd (print_dec qd)); auto using print_dec_decimal; lia.
      * nia.
      * intros v' s' [n d Hn _ -> _|k' X d Hk' HX _ -> _|k' I F d e Hk' HI HF _ _ -> _] Hv.
        -- pose proof (pow_le_3 1 k (proj1 Hk)) as HP. change (1000 ^ 1) with 1000 in HP. nia.
        -- destruct (N.lt_trichotomy k' k) as [HC|[->|HC]].
           ++ specialize (Hlo k' ltac:(lia) ltac:(lia)). nia.
           ++ apply N.mul_le_mono_r. apply (quot_max _ _ _ _ Hv). destruct Hq as [_ Hq]. apply (N.lt_le_trans _ _ _ Hq). rewrite EP, Dq, N.mul_assoc. apply N.mul_le_mono_r. lia.
           ++ specialize (Hhi k' HC). exfalso. nia.
        -- destruct (N.lt_trichotomy k' k) as [HC|[->|HC]].
           ++ specialize (Hlo k' ltac:(lia) ltac:(lia)). destruct (pow1000_10 k' (proj1 Hk')) as [EQ _]. nia.
           ++ fold b in Hv |- *. rewrite EP, N.mul_assoc. apply N.mul_le_mono_r. lia.
           ++ specialize (Hhi k' HC). destruct (pow1000_10 k' (proj1 Hk')) as [EQ _]. exfalso. nia.
Qed.

(* ---------------- humansize_parse -------------------------------------- *)
Definition fin (r : Z * N * N) : option N :=
  let '(state, size, mult) := r in
  let '(state, size) := if UINT64_MAX / mult <? size then ((-1)%Z, size) else (state, w64 (size * mult)) in
  if (state =? -1)%Z then None else Some size.
Lemma fin_ok st z m v : 0 < m -> st <> (-1)%Z -> (fin (st, z, m) = Some v <-> z * m < 2 ^ 64 /\ v = z * m).
Proof.
  intros Hm Hst. unfold fin, UINT64_MAX.
  destruct (N.ltb_spec (0xffffffffffffffff / m) z) as [H|H].
  - split; [discriminate|]. intros [H1 _]. exfalso.
    assert (z <= 0xffffffffffffffff / m) by (apply N.div_le_lower_bound; lia). lia.
  - destruct (Z.eqb_spec st (-1)); [contradiction|].
    assert (z * m < 2 ^ 64) as HL.
    { pose proof (N.mul_div_le 0xffffffffffffffff m ltac:(lia)). assert (m * z <= m * (0xffffffffffffffff / m)) by (apply N.mul_le_mono_l; lia). lia. }
    rewrite w64_small by exact HL. split; [intros E; injection E as <-; auto|intros [_ ->]; reflexivity].
Qed.
Lemma fin_err z m : fin ((-1)%Z, z, m) = None.
Proof. unfold fin. destruct (UINT64_MAX / m <? z); reflexivity. Qed.
Definition opt_B (s : bytes) : Prop := s = [] \/ s = [66].
Lemma loop5 s z m v : fin (hp_loop s 5 z m) = Some v <-> s = [] /\ fin (5%Z, z, m) = Some v.
Proof.
  destruct s; [cbn [hp_loop]; tauto|]. cbn [hp_loop]. change (hp_step 5 n z m) with ((-1)%Z, z, m). cbv iota beta.
  change ((-1 =? -1)%Z) with true. cbv iota. rewrite fin_err. split; [discriminate|intros [H _]; discriminate].
Qed.
Lemma s4 c t z m v : fin (let '(st, z, m) := hp_s4 c z m in if (st =? -1)%Z then (st, z, m) else hp_loop t st z m) = Some v <->
  (c :: t = [66] /\ fin (5%Z, z, m) = Some v).
Proof.
  unfold hp_s4. destruct (N.eqb_spec c 66) as [-> |Hc]; cbv iota beta.
  - change ((5 =? -1)%Z) with false. cbv iota. rewrite loop5. split; intros [H1 H2]; (split; [|exact H2]); congruence.
  - change ((-1 =? -1)%Z) with true. cbv iota. rewrite fin_err. split; [discriminate|intros [H _]; congruence].
Qed.
Lemma fin_st st z m : st <> (-1)%Z -> fin (st, z, m) = fin (5%Z, z, m).
Proof.
  intros H. unfold fin. destruct (UINT64_MAX / m <? z); [reflexivity|].
  destruct (Z.eqb_spec st (-1)); [contradiction|reflexivity].
Qed.
Lemma loop4 s z m v : fin (hp_loop s 4 z m) = Some v <-> opt_B s /\ fin (5%Z, z, m) = Some v.
Proof.
  unfold opt_B. destruct s as [|c t]; cbn [hp_loop].
  - rewrite (fin_st 4) by lia. intuition discriminate.
  - change (hp_step 4 c z m) with (hp_s4 c z m). rewrite s4. intuition discriminate.
Qed.
Lemma mult_pre c : hp_mult c 1 <> 1 -> exists k, 1 <= k <= 6 /\ c = si_prefix k /\ hp_mult c 1 = 1000 ^ k.
Proof.
  intros H.
  destruct (N.eq_dec c 69) as [-> |H1]; [exists 6; repeat split; lia|].
  destruct (N.eq_dec c 80) as [-> |H2]; [exists 5; repeat split; lia|].
  destruct (N.eq_dec c 84) as [-> |H3]; [exists 4; repeat split; lia|].
  destruct (N.eq_dec c 71) as [-> |H4]; [exists 3; repeat split; lia|].
  destruct (N.eq_dec c 77) as [-> |H5]; [exists 2; repeat split; lia|].
  destruct (N.eq_dec c 107) as [-> |H6]; [exists 1; repeat split; lia|].
  exfalso. apply H. unfold hp_mult.
  clear H. destruct c as [|c]; [reflexivity|].
  do 7 (destruct c as [c|c|]; try reflexivity; try (exfalso; congruence)).
Qed.
Lemma mult_si k : 1 <= k <= 6 -> hp_mult (si_prefix k) 1 = 1000 ^ k.
Proof.
  intros H. assert (k = 1 \/ k = 2 \/ k = 3 \/ k = 4 \/ k = 5 \/ k = 6) as HK by lia.
  destruct HK as [->|[->|[->|[->|[->| ->]]]]]; reflexivity.
Qed.
(** What may follow the digits and the space. *)
Definition tail (s : bytes) (k : N) : Prop :=
  exists pre b, (k = 0 /\ pre = [] \/ 1 <= k <= 6 /\ pre = [si_prefix k]) /\ opt_B b /\ s = pre ++ b.
Lemma pow1000_ne1 k : 1 <= k -> 1000 ^ k <> 1.
Proof. intros H. pose proof (pow_le_3 1 k H) as HP. change (1000 ^ 1) with 1000 in HP. lia. Qed.
Lemma s3 c t z v : fin (let '(st, z, m) := hp_s3 c z 1 in if (st =? -1)%Z then (st, z, m) else hp_loop t st z m) = Some v <->
  exists k, tail (c :: t) k /\ fin (5%Z, z, 1000 ^ k) = Some v.
Proof.
  unfold hp_s3. destruct (N.eqb_spec (hp_mult c 1) 1) as [E|E]; cbn [negb].
  - rewrite E, s4. split.
    + intros [H1 H2]. exists 0. split; [|exact H2]. exists [], [66]. repeat split; auto. right; reflexivity.
    + intros (k & (pre & b & Hk & Hb & Es) & Hf).
      destruct Hk as [[-> ->]|[Hk ->]].
      * cbn [app] in Es. destruct Hb as [-> | ->]; [discriminate|]. auto.
      * cbn [app] in Es. exfalso. injection Es as -> _. rewrite mult_si in E by exact Hk. exact (pow1000_ne1 k (proj1 Hk) E).
  - change ((4 =? -1)%Z) with false. cbv iota. rewrite loop4. destruct (mult_pre c E) as (k & Hk & -> & ->). split.
    + intros [Hb Hf]. exists k. split; [|exact Hf]. exists [si_prefix k], t. repeat split; auto.
    + intros (k' & (pre & b & Hk' & Hb & Es) & Hf). destruct Hk' as [[-> ->]|[Hk' ->]].
      * exfalso. cbn [app] in Es. destruct Hb as [-> | ->]; [discriminate|]. injection Es as Es _. rewrite Es in E. apply E. reflexivity.
      * cbn [app] in Es. assert (si_prefix k' = si_prefix k /\ b = t) as [EP ->] by (split; congruence).
        assert (1000 ^ k' = 1000 ^ k) as Ek by (rewrite <- (mult_si k'), <- (mult_si k), EP by assumption; reflexivity).
        rewrite Ek in Hf. auto.
Qed.
Lemma tail_nil k : tail [] k -> k = 0.
Proof. intros (pre & b & [[H _]|[_ ->]] & _ & E); [exact H|discriminate]. Qed.
Lemma loop3 s z v : fin (hp_loop s 3 z 1) = Some v <-> exists k, tail s k /\ fin (5%Z, z, 1000 ^ k) = Some v.
Proof.
  destruct s as [|c t]; cbn [hp_loop].
  - rewrite (fin_st 3) by lia. split.
    + intros H. exists 0. split; [|exact H]. exists [], []. repeat split; auto. left; reflexivity.
    + intros (k & Hk & H). apply tail_nil in Hk. subst k. exact H.
  - change (hp_step 3 c z 1) with (hp_s3 c z 1). apply s3.
Qed.
Definition tail2 (s : bytes) (k : N) : Prop := exists sp t, (sp = [] \/ sp = [32]) /\ tail t k /\ s = sp ++ t.
Lemma tail_32 t k : ~ tail (32 :: t) k.
Proof.
  intros (pre & b & Hk & Hb & E). destruct Hk as [[-> ->]|[Hk ->]]; cbn [app] in E.
  - destruct Hb as [-> | ->]; discriminate.
  - injection E as E _.
    assert (k = 1 \/ k = 2 \/ k = 3 \/ k = 4 \/ k = 5 \/ k = 6) as HK by lia.
    destruct HK as [->|[->|[->|[->|[->| ->]]]]]; discriminate.
Qed.
Lemma s2 c t z v : fin (let '(st, z, m) := hp_s2 c z 1 in if (st =? -1)%Z then (st, z, m) else hp_loop t st z m) = Some v <->
  exists k, tail2 (c :: t) k /\ fin (5%Z, z, 1000 ^ k) = Some v.
Proof.
  unfold hp_s2. destruct (N.eqb_spec c 32) as [-> |Hc].
  - change ((3 =? -1)%Z) with false. cbv iota. rewrite loop3. split; intros (k & H & Hf); exists k; (split; [|exact Hf]).
    + exists [32], t. auto.
    + destruct H as (sp & t' & [-> | ->] & H & E); cbn [app] in E.
      * subst t'. exfalso. exact (tail_32 _ _ H).
      * assert (t' = t) as -> by congruence. exact H.
  - rewrite s3. split; intros (k & H & Hf); exists k; (split; [|exact Hf]).
    + exists [], (c :: t). auto.
    + destruct H as (sp & t' & [-> | ->] & H & E); cbn [app] in E; [subst t'; exact H|congruence].
Qed.
Lemma tail2_nondigit c t k : tail2 (c :: t) k -> is_digit c = false.
Proof.
  intros (sp & t' & [-> | ->] & (pre & b & Hk & Hb & E2) & E); cbn [app] in E.
  - rewrite <- E in E2. clear E. destruct Hk as [[-> ->]|[Hk ->]]; cbn [app] in E2.
    + destruct Hb as [-> | ->]; [discriminate|]. injection E2 as -> _. reflexivity.
    + injection E2 as -> _.
      assert (k = 1 \/ k = 2 \/ k = 3 \/ k = 4 \/ k = 5 \/ k = 6) as HK by lia.
      destruct HK as [->|[->|[->|[->|[->| ->]]]]]; reflexivity.
  - injection E as -> _. reflexivity.
Qed.
Definition acc_val (z : N) (ds : bytes) : N := fold_left (fun a c => 10 * a + (c - 48)) ds z.
Lemma acc_ge ds : forall z, z <= acc_val z ds.
Proof. induction ds as [|d ds IH]; intros z; cbn [acc_val fold_left]; [lia|]. specialize (IH (10 * z + (d - 48))). unfold acc_val in *. lia. Qed.
Lemma loop1 s : forall z v, z < 2 ^ 64 ->
  (fin (hp_loop s 1 z 1) = Some v <->
   exists ds t k, forallb is_digit ds = true /\ s = ds ++ t /\ tail2 t k /\ acc_val z ds * 1000 ^ k < 2 ^ 64 /\ v = acc_val z ds * 1000 ^ k).
Proof.
  assert (forall k, 0 < 1000 ^ k) as HP by (intros k; pose proof (N.pow_nonzero 1000 k); lia).
  induction s as [|c s IH]; intros z v Hz; cbn [hp_loop].
  - rewrite fin_ok by lia. split.
    + intros [H1 H2]. exists [], [], 0. repeat split; auto.
      * exists [], []. repeat split; auto. exists [], []. repeat split; auto. left; reflexivity.
    + intros (ds & t & k & _ & E & Ht & H1 & H2). destruct ds; [|discriminate]. cbn [app] in E. subst t.
      destruct Ht as (sp & t & _ & Ht & E). destruct sp; [|discriminate]. cbn [app] in E. subst t.
      apply tail_nil in Ht. subst k. auto.
  - change (hp_step 1 c z 1) with (hp_s1 c z 1). unfold hp_s1. fold (is_digit c).
    destruct (is_digit c) eqn:Ed.
    + assert (48 <= c <= 57) as Hc by (unfold is_digit in Ed; lia).
      assert ((exists ds t k, forallb is_digit ds = true /\ c :: s = ds ++ t /\ tail2 t k /\ acc_val z ds * 1000 ^ k < 2 ^ 64 /\ v = acc_val z ds * 1000 ^ k) <->
        (exists ds t k, forallb is_digit ds = true /\ s = ds ++ t /\ tail2 t k /\ acc_val (10 * z + (c - 48)) ds * 1000 ^ k < 2 ^ 64 /\ v = acc_val (10 * z + (c - 48)) ds * 1000 ^ k)) as ->.
      { split.
        - intros (ds & t & k & H1 & H2 & H3 & H4 & H5). destruct ds as [|d ds].
          + cbn [app] in H2. subst t. apply tail2_nondigit in H3. congruence.
          + cbn [app] in H2. injection H2 as <- ->. cbn [forallb] in H1. apply andb_prop in H1. exists ds, t, k. tauto.
        - intros (ds & t & k & H1 & H2 & H3 & H4 & H5). exists (c :: ds), t, k. cbn [forallb app]. rewrite Ed, H1, H2. auto. }
      unfold UINT64_MAX.
      destruct (N.ltb_spec (0xffffffffffffffff / 10) z) as [H1|H1].
      * assert (0x1999999999999999 < z) as H1' by exact H1. clear H1.
        match goal with |- context[if ?b then _ else (_, w64 ?x)] => destruct b end; cbv iota beta;
        change ((-1 =? -1)%Z) with true; cbv iota; rewrite fin_err; (split; [discriminate|]);
        intros (ds & t & k & _ & _ & _ & H4 & _); exfalso;
        pose proof (acc_ge ds (10 * z + (c - 48))); pose proof (HP k); nia.
      * assert (z <= 0x1999999999999999) as H1' by exact H1. clear H1.
        rewrite (w64_small (z * 10)) by lia.
        destruct (N.ltb_spec (0xffffffffffffffff - (c - 48)) (z * 10)) as [H2|H2]; cbv iota beta.
        -- change ((-1 =? -1)%Z) with true; cbv iota; rewrite fin_err; (split; [discriminate|]);
           intros (ds & t & k & _ & _ & _ & H4 & _); exfalso;
           pose proof (acc_ge ds (10 * z + (c - 48))); pose proof (HP k); nia.
        -- change ((1 =? -1)%Z) with false. cbv iota. rewrite (w64_small (z * 10 + (c - 48))) by lia.
           replace (z * 10 + (c - 48)) with (10 * z + (c - 48)) by lia. apply IH. lia.
    + rewrite s2. split.
      * intros (k & Ht & Hf). apply fin_ok in Hf; [|apply HP|lia]. exists [], (c :: s), k. cbn [forallb app acc_val fold_left]. tauto.
      * intros (ds & t & k & H1 & H2 & H3 & H4 & H5). destruct ds as [|d ds].
        -- cbn [app] in H2. subst t. exists k. split; [exact H3|]. apply fin_ok; [apply HP|lia|]. auto.
        -- cbn [app] in H2. injection H2 as <- _. cbn [forallb] in H1. rewrite Ed in H1. discriminate.
Qed.
Theorem humansize_parse_spec size0 s v :
  humansize_parse size0 s = Some v <-> human_grammar s v /\ v < 2 ^ 64.
Proof.
  unfold humansize_parse, human_grammar. destruct s as [|c s].
  - split; [discriminate|]. intros [(ds & sp & k & pre & b & H1 & _ & _ & _ & _ & E & _) _].
    destruct ds; [contradiction|discriminate].
  - fold (fin (hp_loop (c :: s) 0 size0 1)).
    assert (fin (hp_loop (c :: s) 0 size0 1) = if is_digit c then fin (hp_loop (c :: s) 1 0 1) else None) as ->.
    { cbn [hp_loop]. change (hp_step 0 c size0 1) with (if (c <? 48) || (57 <? c) then ((-1)%Z, 0, 1) else hp_s1 c 0 1).
      change (hp_step 1 c 0 1) with (hp_s1 c 0 1).
      unfold is_digit. destruct (N.ltb_spec c 48), (N.ltb_spec 57 c), (N.leb_spec 48 c), (N.leb_spec c 57); try lia; cbn [andb orb]; reflexivity. }
    destruct (is_digit c) eqn:Ed.
    + rewrite loop1 by lia. split.
      * intros (ds & t & k & H1 & H2 & (sp & t' & Hsp & (pre & b & Hk & Hb & E1) & E2) & H4 & H5).
        split; [|lia]. exists ds, sp, k, pre, b. subst t t'. repeat split; auto.
        -- intros ->. cbn [app] in H2.
           assert (tail2 (c :: s) k) as HT by (rewrite H2; exists sp, (pre ++ b); repeat split; auto; exists pre, b; auto).
           apply tail2_nondigit in HT. congruence.
      * intros [(ds & sp & k & pre & b & H1 & H2 & H3 & H4 & H5 & H6 & H7) H8].
        exists ds, (sp ++ pre ++ b), k. fold (dec_val ds) in *. change (acc_val 0 ds) with (dec_val ds). repeat split; auto; [|lia].
        exists sp, (pre ++ b). repeat split; auto. exists pre, b. auto.
    + split; [discriminate|]. intros [(ds & sp & k & pre & b & H1 & H2 & H3 & H4 & H5 & H6 & H7) H8].
      destruct ds as [|d ds]; [contradiction|]. cbn [app] in H6. injection H6 as -> _. cbn [forallb] in H2. rewrite Ed in H2. discriminate.
Qed.
