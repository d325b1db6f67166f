(** Facts about the AES specification; AES-NI and ARM equal FIPS 197. *)
From Verif Require Import Base SpecBytes SpecAES M_endian P_endian P_verify M_aes_hw P_smix2 P_scrypt_ref.

Local Opaque sbox gmul.

(** Destruct a list of known literal length into its elements. *)
Ltac explode l :=
  repeat (let x := fresh "x" in destruct l as [|x l]; [try discriminate|]; try discriminate); try discriminate.
Lemma list4_inv (w : bytes) : length w = 4%nat -> exists a b c d, w = [a; b; c; d].
Proof. intros H. do 4 (destruct w as [|? w]; [discriminate|]). destruct w; [eauto 10|discriminate]. Qed.
Lemma list16_inv (w : bytes) : length w = 16%nat -> exists a b c d,
  length a = 4%nat /\ length b = 4%nat /\ length c = 4%nat /\ length d = 4%nat /\ w = a ++ b ++ c ++ d.
Proof.
  intros H. exists (sub w 0 4), (sub w 4 4), (sub w 8 4), (sub w 12 4).
  rewrite !sub_length by lia. repeat (split; [reflexivity|]).
  do 16 (destruct w as [|? w]; [discriminate|]). destruct w; [reflexivity|discriminate].
Qed.

Lemma SubBytes_length s : length (SubBytes s) = length s.
Proof. apply map_length. Qed.
Lemma ShiftRows_length s : length (ShiftRows s) = 16%nat.
Proof. reflexivity. Qed.
Lemma MixColumns_length s : length (MixColumns s) = 16%nat.
Proof. reflexivity. Qed.
Lemma shift_sub_comm s : length s = 16%nat -> SubBytes (ShiftRows s) = ShiftRows (SubBytes s).
Proof.
  intros H. do 16 (destruct s as [|? s]; [discriminate|]). destruct s; [reflexivity|discriminate].
Qed.

(** ---- key expansion of the specification ---- *)
Definition kexp_temp (Nk i : nat) (prev : bytes) : bytes :=
  if Nat.eqb (i mod Nk) 0 then xorl (SubWord (RotWord prev)) (Rcon (i / Nk))
  else if Nat.ltb 6 Nk && Nat.eqb (i mod Nk) 4 then SubWord prev else prev.
Lemma kexp_iter Nk w0 n : (0 < Nk)%nat -> length w0 = Nk ->
  let w := Nat.iter n (kexp_next Nk) w0 in
  length w = (Nk + n)%nat /\
  (forall i, (i < Nk)%nat -> nth i w [] = nth i w0 []) /\
  (forall i, (Nk <= i < Nk + n)%nat ->
     nth i w [] = xorl (nth (i - Nk) w []) (kexp_temp Nk i (nth (i - 1) w []))).
Proof.
  intros HNk H0. induction n as [|n IH].
  - cbn [Nat.iter nat_rect]. split; [lia|]. split; [auto|]. intros i Hi; lia.
  - rewrite nat_iter_S. cbn zeta in IH |- *. set (w := Nat.iter n (kexp_next Nk) w0) in *.
    destruct IH as (HL & H1 & H2). unfold kexp_next. fold (kexp_temp Nk (length w) (nth (length w - 1) w [])).
    rewrite app_length. cbn [length]. split; [lia|].
    split.
    + intros i Hi. rewrite app_nth1 by lia. apply H1; lia.
    + intros i Hi.
      assert (i < Nk + n \/ i = length w)%nat as [Hc|Hc] by lia.
      * rewrite !app_nth1 by lia. apply H2; lia.
      * subst i. rewrite app_nth2, Nat.sub_diag by lia. rewrite !app_nth1 by lia. reflexivity.
Qed.

Definition word_ok (w : bytes) := length w = 4%nat.
Lemma Rcon_length i : length (Rcon i) = 4%nat. Proof. reflexivity. Qed.
Lemma RotWord_length w : length (RotWord w) = length w.
Proof. unfold RotWord. rewrite app_length, skipn_length, firstn_length. lia. Qed.
Lemma SubWord_length w : length (SubWord w) = length w.
Proof. apply map_length. Qed.
Lemma kexp_temp_length Nk i p : length p = 4%nat -> length (kexp_temp Nk i p) = 4%nat.
Proof.
  intros H. unfold kexp_temp. destruct (Nat.eqb (i mod Nk) 0).
  - rewrite xorl_length, SubWord_length, RotWord_length, Rcon_length. lia.
  - destruct (Nat.ltb 6 Nk && Nat.eqb (i mod Nk) 4); [rewrite SubWord_length|]; exact H.
Qed.
Lemma kexp_words_length Nk w0 n : (0 < Nk)%nat -> length w0 = Nk -> Forall word_ok w0 ->
  Forall word_ok (Nat.iter n (kexp_next Nk) w0).
Proof.
  intros HNk H0 HF. induction n as [|n IH]; [exact HF|].
  rewrite nat_iter_S. destruct (kexp_iter Nk w0 n HNk H0) as (HL & _).
  set (w := Nat.iter n (kexp_next Nk) w0) in *. unfold kexp_next.
  fold (kexp_temp Nk (length w) (nth (length w - 1) w [])).
  assert (forall j, (j < length w)%nat -> length (nth j w []) = 4%nat) as HW.
  { intros j Hj. rewrite Forall_forall in IH. apply IH. apply nth_In. lia. }
  apply Forall_app. split; [exact IH|]. constructor; [|constructor].
  unfold word_ok. rewrite xorl_length, kexp_temp_length; rewrite HW by lia; reflexivity.
Qed.
Lemma chunks4_words key n : length key = (4 * n)%nat ->
  length (chunks 4 key) = n /\ Forall word_ok (chunks 4 key) /\ concat (chunks 4 key) = key /\
  forall i, (i < n)%nat -> nth i (chunks 4 key) [] = sub key (4 * i) 4.
Proof.
  revert key. induction n as [|n IH]; intros key H.
  - destruct key; [|discriminate]. repeat split; try constructor. intros; lia.
  - rewrite <- (firstn_skipn 4 key). rewrite chunks_app_block by (rewrite ?firstn_length; lia).
    destruct (IH (skipn 4 key)) as (H1 & H2 & H3 & H4); [rewrite skipn_length; lia|].
    cbn [length concat]. rewrite H1, H3. repeat split; auto.
    + constructor; auto. unfold word_ok. rewrite firstn_length. lia.
    + intros i Hi. rewrite firstn_skipn. destruct i as [|i]; [reflexivity|]. cbn [nth].
      rewrite H4 by lia. unfold sub. rewrite skipn_skipn. do 2 f_equal. lia.
Qed.

(** One step of the round-key recursion. *)
Definition kstep (a b c d t : bytes) : bytes :=
  let e := xorl a t in let f := xorl b e in let g := xorl c f in let h := xorl d g in e ++ f ++ g ++ h.
Lemma nth4_sub (w : list bytes) j : (4 * j + 4 <= length w)%nat ->
  sub w (4 * j) 4 = [nth (4 * j) w []; nth (4 * j + 1) w []; nth (4 * j + 2) w []; nth (4 * j + 3) w []].
Proof.
  intros H. rewrite (sub_S w (4 * j) 3 []), (sub_S w (S (4 * j)) 2 []), (sub_S w (S (S (4 * j))) 1 []),
    (sub_S w (S (S (S (4 * j)))) 0 []) by lia.
  cbn [sub firstn]. replace (4 * j + 1)%nat with (S (4 * j)) by lia.
  replace (4 * j + 2)%nat with (S (S (4 * j))) by lia. replace (4 * j + 3)%nat with (S (S (S (4 * j)))) by lia. reflexivity.
Qed.
Lemma round_key_words w j : (4 * j + 4 <= length w)%nat ->
  round_key w j = nth (4 * j) w [] ++ nth (4 * j + 1) w [] ++ nth (4 * j + 2) w [] ++ nth (4 * j + 3) w [].
Proof. intros H. unfold round_key. rewrite nth4_sub by exact H. cbn [concat]. rewrite app_nil_r. reflexivity. Qed.

Lemma mod_off j k : (k < 4)%nat -> ((4 * j + k) mod 4 = k)%nat.
Proof. intros H. replace (4 * j + k)%nat with (k + j * 4)%nat by lia. rewrite Nat.mod_add, Nat.mod_small; lia. Qed.

Section Expand.
  Context (key : bytes) (Nk : nat).
  Hypothesis HNk : (Nk = 4 \/ Nk = 8)%nat.
  Hypothesis Hkey : length key = (4 * Nk)%nat.
  Let w := KeyExpansion key.
  Let Nr := (Nk + 6)%nat.
  Lemma kexp_w : w = Nat.iter (4 * (Nr + 1) - Nk) (kexp_next Nk) (chunks 4 key).
  Proof.
    unfold w, KeyExpansion, Nr. rewrite Hkey.
    replace (4 * Nk / 4)%nat with Nk by (rewrite Nat.mul_comm, Nat.div_mul; lia). reflexivity.
  Qed.
  Lemma kexp_facts : length w = (4 * (Nr + 1))%nat /\
    (forall i, (i < Nk)%nat -> nth i w [] = sub key (4 * i) 4) /\
    (forall i, (Nk <= i < 4 * (Nr + 1))%nat ->
       nth i w [] = xorl (nth (i - Nk) w []) (kexp_temp Nk i (nth (i - 1) w []))) /\
    (forall i, (i < 4 * (Nr + 1))%nat -> length (nth i w []) = 4%nat).
  Proof.
    destruct (chunks4_words key Nk Hkey) as (H1 & H2 & _ & H4). rewrite kexp_w.
    assert (0 < Nk)%nat as Hpos by lia.
    destruct (kexp_iter Nk (chunks 4 key) (4 * (Nr + 1) - Nk) Hpos H1) as (K1 & K2 & K3).
    pose proof (kexp_words_length Nk (chunks 4 key) (4 * (Nr + 1) - Nk) Hpos H1 H2) as HF.
    unfold Nr in *. split; [lia|]. split.
    - intros i Hi. rewrite K2 by lia. apply H4; lia.
    - split.
      + intros i Hi. apply K3; lia.
      + intros i Hi. rewrite Forall_forall in HF. apply HF. apply nth_In. lia.
  Qed.
  Lemma round_key_length j : (j <= Nr)%nat -> length (round_key w j) = 16%nat.
  Proof.
    intros H. destruct kexp_facts as (K1 & _ & _ & K4).
    rewrite round_key_words by lia. rewrite !app_length, !K4 by lia. reflexivity.
  Qed.
  (** The words of round key j in terms of those 4 (8) words before. *)
  Lemma round_key_step j : (Nk <= 4 * j)%nat -> (j <= Nr)%nat ->
    let q := (Nk / 4)%nat in
    let i := (4 * (j - q))%nat in
    round_key w j = kstep (nth i w []) (nth (i + 1) w []) (nth (i + 2) w []) (nth (i + 3) w [])
       (kexp_temp Nk (4 * j) (nth (4 * j - 1) w [])) /\
    round_key w (j - q) = nth i w [] ++ nth (i + 1) w [] ++ nth (i + 2) w [] ++ nth (i + 3) w [] /\
    nth (4 * j - 1) w [] = lane (round_key w (j - 1)) 3.
  Proof.
    intros Hj1 Hj2 q i. destruct kexp_facts as (K1 & _ & K3 & K4). unfold Nr in *.
    assert (4 * q = Nk)%nat as Hq by (subst q; destruct HNk as [-> | ->]; reflexivity).
    split; [|split].
    - rewrite round_key_words by lia. unfold kstep.
      assert (forall k, (1 <= k < 4)%nat -> kexp_temp Nk (4 * j + k) (nth (4 * j + k - 1) w []) = nth (4 * j + (k - 1)) w []) as HT.
      { intros k Hk. unfold kexp_temp.
        replace (4 * j + k - 1)%nat with (4 * j + (k - 1))%nat by lia.
        assert ((4 * j + k) mod Nk <> 0 /\ ((4 * j + k) mod Nk <> 4))%nat as [HA HB].
        { destruct HNk as [-> | ->].
          - rewrite mod_off by lia. lia.
          - pose proof (Nat.div_mod (4 * j + k) 8 ltac:(lia)). pose proof (Nat.mod_upper_bound (4 * j + k) 8 ltac:(lia)). lia. }
        apply Nat.eqb_neq in HA, HB. rewrite HA, HB, andb_false_r. reflexivity. }
      pose proof (K3 (4 * j) ltac:(lia))%nat as E0.
      pose proof (K3 (4 * j + 1) ltac:(lia))%nat as E1. rewrite HT in E1 by lia.
      pose proof (K3 (4 * j + 2) ltac:(lia))%nat as E2. rewrite HT in E2 by lia.
      pose proof (K3 (4 * j + 3) ltac:(lia))%nat as E3. rewrite HT in E3 by lia.
      replace (4 * j - Nk)%nat with i in E0 by lia.
      replace (4 * j + 1 - Nk)%nat with (i + 1)%nat in E1 by lia.
      replace (4 * j + 2 - Nk)%nat with (i + 2)%nat in E2 by lia.
      replace (4 * j + 3 - Nk)%nat with (i + 3)%nat in E3 by lia.
      replace (4 * j + (1 - 1))%nat with (4 * j)%nat in E1 by lia.
      replace (4 * j + (2 - 1))%nat with (4 * j + 1)%nat in E2 by lia.
      replace (4 * j + (3 - 1))%nat with (4 * j + 2)%nat in E3 by lia.
      rewrite <- E0, <- E1, <- E2, <- E3. reflexivity.
    - rewrite round_key_words by lia. reflexivity.
    - rewrite round_key_words by lia. unfold lane.
      rewrite !app_assoc. unfold sub. rewrite skipn_app.
      rewrite skipn_all2 by (rewrite !app_length, !K4 by lia; lia).
      rewrite !app_length, !K4 by lia. cbn [Nat.add Nat.mul Nat.sub skipn app].
      rewrite firstn_all2 by (rewrite K4; lia). f_equal. lia.
  Qed.
End Expand.

(** ---- AES-NI key expansion ---- *)
Lemma xorl3 a b c : xorl (xorl a b) c = xorl a (xorl b c).
Proof.
  revert b c. induction a as [|x a IH]; intros [|y b] [|z c]; try reflexivity.
  cbn [xorl]. rewrite IH, N.lxor_assoc. reflexivity.
Qed.
Lemma dup4 (t : bytes) : length t = 4%nat -> forall a b c d,
  length a = 4%nat -> length b = 4%nat -> length c = 4%nat -> length d = 4%nat ->
  let s := a ++ b ++ c ++ d in
  let s1 := xorl s (repeat 0 4 ++ firstn 12 s) in
  let s2 := xorl s1 (repeat 0 8 ++ firstn 8 s1) in
  xorl s2 (t ++ t ++ t ++ t) = kstep a b c d t.
Proof.
  intros Ht a b c d Ha Hb Hc Hd.
  destruct (list4_inv t Ht) as (t0 & t1 & t2 & t3 & ->).
  destruct (list4_inv a Ha) as (a0 & a1 & a2 & a3 & ->).
  destruct (list4_inv b Hb) as (b0 & b1 & b2 & b3 & ->).
  destruct (list4_inv c Hc) as (c0 & c1 & c2 & c3 & ->).
  destruct (list4_inv d Hd) as (d0 & d1 & d2 & d3 & ->).
  cbn [app repeat firstn xorl kstep]. unfold kstep. cbn [app xorl].
  rewrite !N.lxor_0_r.
  repeat (refine (f_equal2 cons _ _); [bitwise|]). reflexivity.
Qed.
Lemma seqm_nil {A B} (f : A -> B -> res A) a : seqm f [] a = Ok a.
Proof. reflexivity. Qed.
Lemma seqm_fail {A B} (f : A -> B -> res A) l e : (forall a, e <> Ok a) ->
  fold_left (fun acc b => x <- acc ;; f x b) l e = e.
Proof.
  intros He. induction l as [|b l IH]; [reflexivity|]. cbn [fold_left].
  destruct e as [a| |]; [exfalso; exact (He a eq_refl)| |]; cbn [bind]; apply IH.
Qed.
Lemma seqm_cons {A B} (f : A -> B -> res A) b l a : seqm f (b :: l) a = (x <- f a b ;; seqm f l x).
Proof.
  unfold seqm. cbn [fold_left]. rewrite bind_Ok. destruct (f a b) as [x| |].
  - rewrite bind_Ok. reflexivity.
  - apply seqm_fail. discriminate.
  - apply seqm_fail. discriminate.
Qed.
Lemma seqm_app {A B} (f : A -> B -> res A) l1 l2 a : seqm f (l1 ++ l2) a = (x <- seqm f l1 a ;; seqm f l2 x).
Proof.
  revert a. induction l1 as [|b l IH]; intros a; [reflexivity|].
  cbn [app]. rewrite !seqm_cons. destruct (f a b) as [x| |]; [|reflexivity|reflexivity].
  rewrite !bind_Ok. apply IH.
Qed.

(** The array holds the first n round keys. *)
Definition has_keys (w : list bytes) (n : nat) (rk : list bytes) : Prop :=
  length rk = 15%nat /\ forall j, (j < n)%nat -> nth_error rk j = Some (round_key w j).
Lemma rdv_keys w n rk j : has_keys w n rk -> (j < n)%nat -> rdv rk j = Ok (round_key w j).
Proof. intros [_ H] Hj. unfold rdv. rewrite (H j Hj). reflexivity. Qed.
Lemma nth_error_upd1 {A} (l : list A) i j v : (i < length l)%nat ->
  nth_error (upd l i [v]) j = if Nat.eqb i j then Some v else nth_error l j.
Proof.
  intros H. unfold upd.
  destruct (Nat.eqb_spec i j) as [->|Hij].
  - rewrite nth_error_app2 by (rewrite firstn_length; lia). rewrite firstn_length.
    replace (j - Nat.min j (length l))%nat with 0%nat by lia. reflexivity.
  - assert (j < i \/ i < j)%nat as [Hl|Hg] by lia.
    + rewrite nth_error_app1 by (rewrite firstn_length; lia).
      rewrite <- (firstn_skipn i l) at 2. rewrite nth_error_app1 by (rewrite firstn_length; lia). reflexivity.
    + rewrite nth_error_app2 by (rewrite firstn_length; lia). rewrite firstn_length.
      replace (Nat.min i (length l)) with i by lia.
      rewrite nth_error_app2 by (cbn [length]; lia). cbn [length].
      rewrite <- (firstn_skipn (i + 1) l) at 2.
      rewrite nth_error_app2 by (rewrite firstn_length; lia). rewrite firstn_length.
      f_equal. lia.
Qed.
Lemma wrv_keys w n rk v : has_keys w n rk -> (n < 15)%nat -> v = round_key w n ->
  exists rk', wrv rk n v = Ok rk' /\ has_keys w (S n) rk'.
Proof.
  intros [HL H] Hn ->. unfold wrv. rewrite wr_ok by (cbn [length]; lia).
  eexists. split; [reflexivity|]. split.
  - rewrite upd_length; [exact HL|cbn [length]; lia].
  - intros j Hj. rewrite nth_error_upd1 by lia.
    destruct (Nat.eqb_spec n j) as [->|]; [reflexivity|apply H; lia].
Qed.

Lemma lane_length a i : length a = 16%nat -> (i < 4)%nat -> length (lane a i) = 4%nat.
Proof. intros H Hi. unfold lane. apply sub_length. lia. Qed.
Lemma keygen_ff a rcon : length a = 16%nat ->
  mm_shuffle32 (mm_aeskeygenassist a rcon) 0xff =
    let t := xorl (SubWord (RotWord (lane a 3))) [rcon; 0; 0; 0] in t ++ t ++ t ++ t.
Proof.
  intros H. do 16 (destruct a as [|? a]; [discriminate|]). destruct a; [reflexivity|discriminate].
Qed.
Lemma keygen_aa a rcon : length a = 16%nat ->
  mm_shuffle32 (mm_aeskeygenassist a rcon) 0xaa = let t := SubWord (lane a 3) in t ++ t ++ t ++ t.
Proof.
  intros H. do 16 (destruct a as [|? a]; [discriminate|]). destruct a; [reflexivity|discriminate].
Qed.
Lemma firstn_12 (s : bytes) : firstn (16 - 4) s = firstn 12 s. Proof. reflexivity. Qed.

Lemma kstep_ni s a b c d t : s = a ++ b ++ c ++ d ->
  length a = 4%nat -> length b = 4%nat -> length c = 4%nat -> length d = 4%nat -> length t = 4%nat ->
  let s1 := vxor s (mm_slli_si128 s 4) in
  let s2 := vxor s1 (mm_slli_si128 s1 8) in
  vxor s2 (t ++ t ++ t ++ t) = kstep a b c d t.
Proof. intros -> Ha Hb Hc Hd Ht. exact (dup4 t Ht a b c d Ha Hb Hc Hd). Qed.
Lemma temp_len rot d rcon : length d = 4%nat -> length (if rot : bool then xorl (SubWord (RotWord d)) [rcon; 0; 0; 0] else SubWord d) = 4%nat.
Proof.
  intros H. destruct rot; [|rewrite SubWord_length; exact H].
  rewrite xorl_length, SubWord_length, RotWord_length, H. reflexivity.
Qed.
Lemma kt4 j prev : (0 < j)%nat -> kexp_temp 4 (4 * j) prev = xorl (SubWord (RotWord prev)) (Rcon j).
Proof.
  intros H. unfold kexp_temp.
  replace ((4 * j) mod 4)%nat with 0%nat by (rewrite Nat.mul_comm, Nat.mod_mul; lia).
  replace (4 * j / 4)%nat with j by (rewrite Nat.mul_comm, Nat.div_mul; lia). reflexivity.
Qed.
Lemma kt8_even i k prev : i = (2 * k)%nat -> kexp_temp 8 (4 * i) prev = xorl (SubWord (RotWord prev)) (Rcon k).
Proof.
  intros ->. unfold kexp_temp. replace (4 * (2 * k))%nat with (k * 8)%nat by lia.
  rewrite Nat.mod_mul, Nat.div_mul by lia. reflexivity.
Qed.
Lemma kt8_odd i k prev : i = (2 * k + 1)%nat -> kexp_temp 8 (4 * i) prev = SubWord prev.
Proof.
  intros ->. unfold kexp_temp. replace (4 * (2 * k + 1))%nat with (4 + k * 8)%nat by lia.
  rewrite Nat.mod_add by lia. reflexivity.
Qed.

Lemma MKRKEY128_ok key rk i rcon : length key = 16%nat -> has_keys (KeyExpansion key) i rk ->
  (1 <= i <= 10)%nat -> Rcon i = [rcon; 0; 0; 0] ->
  exists rk', MKRKEY128 rk i rcon = Ok rk' /\ has_keys (KeyExpansion key) (S i) rk'.
Proof.
  intros HK Hrk Hi HR. unfold MKRKEY128. rewrite (rdv_keys _ _ _ _ Hrk) by lia. rewrite !bind_Ok.
  pose proof (kexp_facts key 4 (or_introl eq_refl) HK) as (K1 & _ & _ & K4).
  pose proof (round_key_step key 4 (or_introl eq_refl) HK i ltac:(lia) ltac:(lia)) as (S1 & S2 & S3).
  pose proof (round_key_length key 4 (or_introl eq_refl) HK (i - 1) ltac:(lia)) as SL.
  change (4 / 4)%nat with 1%nat in S1, S2.
  apply wrv_keys; [exact Hrk|lia|].
  rewrite keygen_ff by exact SL. cbv zeta.
  rewrite S1, kt4 by lia. rewrite HR, S3.
  apply kstep_ni; [exact S2|apply K4; lia|apply K4; lia|apply K4; lia|apply K4; lia|].
  apply (temp_len true). apply lane_length; [exact SL|lia].
Qed.
Lemma MKRKEY256_ok key rk i (rot : bool) sh rcon : length key = 32%nat -> has_keys (KeyExpansion key) i rk ->
  (2 <= i <= 14)%nat ->
  (if rot then sh = 0xff /\ exists k, i = (2 * k)%nat /\ Rcon k = [rcon; 0; 0; 0]
   else sh = 0xaa /\ exists k, i = (2 * k + 1)%nat) ->
  exists rk', MKRKEY256 rk i sh rcon = Ok rk' /\ has_keys (KeyExpansion key) (S i) rk'.
Proof.
  intros HK Hrk Hi HR. unfold MKRKEY256. rewrite !(rdv_keys _ _ _ _ Hrk) by lia. rewrite !bind_Ok.
  pose proof (kexp_facts key 8 (or_intror eq_refl) HK) as (K1 & _ & _ & K4).
  pose proof (round_key_step key 8 (or_intror eq_refl) HK i ltac:(lia) ltac:(lia)) as (S1 & S2 & S3).
  pose proof (round_key_length key 8 (or_intror eq_refl) HK (i - 1) ltac:(lia)) as SL.
  change (8 / 4)%nat with 2%nat in S1, S2.
  apply wrv_keys; [exact Hrk|lia|].
  destruct rot; destruct HR as [-> [k HR]].
  - destruct HR as [Hk HR]. rewrite keygen_ff by exact SL. cbv zeta. rewrite S1, S3.
    rewrite (kt8_even i k _ Hk), HR.
    apply kstep_ni; [exact S2|apply K4; lia|apply K4; lia|apply K4; lia|apply K4; lia|].
    apply (temp_len true). apply lane_length; [exact SL|lia].
  - rewrite keygen_aa by exact SL. cbv zeta. rewrite S1, S3.
    rewrite (kt8_odd i k _ HR).
    apply kstep_ni; [exact S2|apply K4; lia|apply K4; lia|apply K4; lia|apply K4; lia|].
    apply (temp_len false _ 0). apply lane_length; [exact SL|lia].
Qed.

(** First round keys. *)
Lemma sub_split {A} (l : list A) o a b : sub l o (a + b) = sub l o a ++ sub l (o + a) b.
Proof.
  unfold sub. replace (o + a)%nat with (a + o)%nat by lia. rewrite <- skipn_skipn.
  set (m := skipn o l). clearbody m. clear. revert m. induction a as [|a IH]; intros m; [reflexivity|].
  destruct m as [|x m]; [rewrite !skipn_nil, !firstn_nil; reflexivity|].
  cbn [Nat.add firstn skipn app]. f_equal. apply IH.
Qed.
Lemma round_key_0 key Nk : (Nk = 4 \/ Nk = 8)%nat -> length key = (4 * Nk)%nat ->
  round_key (KeyExpansion key) 0 = sub key 0 16.
Proof.
  intros HN HK. destruct (kexp_facts key Nk HN HK) as (K1 & K2 & _ & _).
  rewrite round_key_words by lia. cbn [Nat.mul Nat.add]. rewrite !K2 by lia.
  cbn [Nat.mul Nat.add].
  pose proof (sub_split key 0 4 12) as E1. pose proof (sub_split key 4 4 8) as E2. pose proof (sub_split key 8 4 4) as E3.
  cbn [Nat.add] in E1, E2, E3. rewrite E1, E2, E3. reflexivity.
Qed.
Lemma round_key_1 key : length key = 32%nat -> round_key (KeyExpansion key) 1 = sub key 16 16.
Proof.
  intros HK. destruct (kexp_facts key 8 (or_intror eq_refl) HK) as (K1 & K2 & _ & _).
  rewrite round_key_words by lia. cbn [Nat.mul Nat.add]. rewrite !K2 by lia.
  cbn [Nat.mul Nat.add].
  pose proof (sub_split key 16 4 12) as E1. pose proof (sub_split key 20 4 8) as E2. pose proof (sub_split key 24 4 4) as E3.
  cbn [Nat.add] in E1, E2, E3. rewrite E1, E2, E3. reflexivity.
Qed.

Theorem key_expand_128_aesni_ok key old : length key = 16%nat -> length old = 15%nat ->
  exists rk, key_expand_128_aesni key old = Ok rk /\ has_keys (KeyExpansion key) 11 rk.
Proof.
  intros HK HO. unfold key_expand_128_aesni, vld16. rewrite rd_ok by lia. rewrite bind_Ok.
  assert (has_keys (KeyExpansion key) 0 old) as H0 by (split; [exact HO|intros; lia]).
  destruct (wrv_keys (KeyExpansion key) 0 old (sub key 0 16) H0 ltac:(lia)) as (rk & -> & Hrk).
  { symmetry. apply (round_key_0 key 4); auto. }
  rewrite bind_Ok. clear H0. unfold rcons128.
  repeat (rewrite seqm_cons; cbn [fst snd];
    match goal with H : has_keys _ _ ?rk |- context [MKRKEY128 ?rk ?i ?rc] =>
      let rk' := fresh "rk" in let H' := fresh "H" in
      destruct (MKRKEY128_ok key rk i rc HK H ltac:(lia) ltac:(vm_compute; reflexivity)) as (rk' & -> & H');
      rewrite bind_Ok; clear H end).
  rewrite seqm_nil. eauto.
Qed.
Theorem key_expand_256_aesni_ok key old : length key = 32%nat -> length old = 15%nat ->
  exists rk, key_expand_256_aesni key old = Ok rk /\ has_keys (KeyExpansion key) 15 rk.
Proof.
  intros HK HO. unfold key_expand_256_aesni, vld16. rewrite !rd_ok by lia. rewrite bind_Ok.
  assert (has_keys (KeyExpansion key) 0 old) as H0 by (split; [exact HO|intros; lia]).
  destruct (wrv_keys (KeyExpansion key) 0 old (sub key 0 16) H0 ltac:(lia)) as (rk & -> & Hrk).
  { symmetry. apply (round_key_0 key 8); auto. }
  rewrite !bind_Ok. clear H0.
  destruct (wrv_keys (KeyExpansion key) 1 rk (sub key 16 16) Hrk ltac:(lia)) as (rk0 & -> & Hrk0).
  { symmetry. apply round_key_1; auto. }
  rewrite bind_Ok. clear Hrk. unfold rcons256.
  repeat (rewrite seqm_cons; cbn [fst snd];
    match goal with H : has_keys _ ?n ?rk |- context [MKRKEY256 ?rk ?i ?sh ?rc] =>
      let rk' := fresh "rk" in let H' := fresh "H" in
      let p := eval vm_compute in (Nat.even n) in
      let k := eval vm_compute in (Nat.div2 n) in
      destruct (MKRKEY256_ok key rk i p sh rc HK H ltac:(lia)
         ltac:(split; [reflexivity|exists k; first [split; [reflexivity|vm_compute; reflexivity]|reflexivity]])) as (rk' & -> & H');
      rewrite bind_Ok; clear H end).
  rewrite seqm_nil. eauto.
Qed.

(** ---- encryption ---- *)
Lemma aesenc_round w s j : length s = 16%nat -> mm_aesenc s (round_key w j) = aes_round w s j.
Proof. intros H. unfold mm_aesenc, aes_round. rewrite shift_sub_comm by exact H. reflexivity. Qed.
Lemma aes_round_length w s j : length (round_key w j) = 16%nat -> length (aes_round w s j) = 16%nat.
Proof. intros H. unfold aes_round, AddRoundKey. rewrite xorl_length, H, MixColumns_length. reflexivity. Qed.
Lemma aesenc_seq_ok w n rk l : has_keys w n rk -> (forall j, (j < n)%nat -> length (round_key w j) = 16%nat) ->
  (forall j, In j l -> (j < n)%nat) -> forall s, length s = 16%nat ->
  aesenc_seq rk l s = Ok (fold_left (aes_round w) l s) /\ length (fold_left (aes_round w) l s) = 16%nat.
Proof.
  intros Hrk HL. induction l as [|j l IH]; intros Hl s Hs.
  - split; [reflexivity|exact Hs].
  - unfold aesenc_seq. rewrite seqm_cons. rewrite (rdv_keys _ _ _ _ Hrk) by (apply Hl; left; reflexivity).
    rewrite !bind_Ok. rewrite aesenc_round by exact Hs. cbn [fold_left].
    apply IH; [intros k Hk; apply Hl; right; exact Hk|].
    apply aes_round_length, HL, Hl. left; reflexivity.
Qed.
Lemma Nk_cases (key : bytes) : (length key = 16 \/ length key = 32)%nat ->
  exists Nk, (Nk = 4 \/ Nk = 8)%nat /\ length key = (4 * Nk)%nat.
Proof. intros [H|H]; [exists 4%nat|exists 8%nat]; rewrite H; auto. Qed.
Lemma cipher_len w Nr s : length s = 16%nat -> length (round_key w Nr) = 16%nat ->
  length (AddRoundKey (ShiftRows (SubBytes s)) (round_key w Nr)) = 16%nat.
Proof. intros H1 H2. unfold AddRoundKey. rewrite xorl_length, ShiftRows_length, H2. reflexivity. Qed.

(** An expanded hardware key for [key]. *)
Definition hw_key_for (key : bytes) (hk : hw_key) : Prop :=
  (length key = 16 \/ length key = 32)%nat /\ hk_nr hk = (length key / 4 + 6)%nat /\
  has_keys (KeyExpansion key) (hk_nr hk + 1) (hk_rkeys hk).

Theorem aesni_encrypt_ok key hk inp : hw_key_for key hk -> length inp = 16%nat ->
  crypto_aes_encrypt_block_aesni_m128i inp hk = Ok (aes_encrypt key inp).
Proof.
  intros (HL & Hnr & Hrk) Hin. unfold crypto_aes_encrypt_block_aesni_m128i, aes_encrypt, Cipher.
  destruct (Nk_cases key HL) as (Nk & HNk & HK).
  pose proof (round_key_length key Nk HNk HK) as RL.
  set (w := KeyExpansion key) in *.
  assert (hk_nr hk = (Nk + 6)%nat) as HNr.
  { rewrite Hnr, HK, Nat.mul_comm, Nat.div_mul by lia. reflexivity. }
  rewrite <- Hnr. rewrite HNr in *.
  rewrite (rdv_keys _ _ _ _ Hrk) by lia. rewrite bind_Ok.
  assert (length (vxor inp (round_key w 0)) = 16%nat) as H0.
  { unfold vxor. rewrite xorl_length, Hin, RL by lia. reflexivity. }
  destruct (aesenc_seq_ok w (Nk + 6 + 1) (hk_rkeys hk) [1;2;3;4;5;6;7;8;9]%nat Hrk) with (s := vxor inp (round_key w 0)) as [E1 L1]; auto.
  { intros j Hj. apply RL. lia. }
  { intros j Hj. cbn [In] in Hj. lia. }
  rewrite E1, bind_Ok.
  destruct HNk as [-> | ->].
  - change (Nat.ltb 10 (4 + 6)) with false. cbv iota. rewrite bind_Ok.
    rewrite (rdv_keys _ _ _ _ Hrk) by lia. rewrite bind_Ok. f_equal.
    unfold mm_aesenclast. rewrite shift_sub_comm by exact L1. reflexivity.
  - change (Nat.ltb 10 (8 + 6)) with true. cbv iota.
    destruct (aesenc_seq_ok w (8 + 6 + 1) (hk_rkeys hk) [10;11;12;13]%nat Hrk) with (s := fold_left (aes_round w) [1;2;3;4;5;6;7;8;9]%nat (vxor inp (round_key w 0))) as [E2 L2]; auto.
    { intros j Hj. apply RL. lia. }
    { intros j Hj. cbn [In] in Hj. lia. }
    rewrite E2, bind_Ok. rewrite (rdv_keys _ _ _ _ Hrk) by lia. rewrite bind_Ok. f_equal.
    unfold mm_aesenclast. rewrite shift_sub_comm by exact L2. rewrite <- fold_left_app. reflexivity.
Qed.

Theorem expand_aesni_ok key old : (length key = 16 \/ length key = 32)%nat -> length old = 15%nat ->
  exists hk, crypto_aes_key_expand_aesni true old key (length key) = Ok (Some hk) /\ hw_key_for key hk.
Proof.
  intros HL HO. unfold crypto_aes_key_expand_aesni. cbn [negb]. cbv iota.
  destruct HL as [HK|HK]; rewrite HK.
  - destruct (key_expand_128_aesni_ok key old HK HO) as (rk & -> & Hrk). rewrite bind_Ok.
    change (Nat.eqb 16 16) with true. cbv iota.
    eexists. split; [reflexivity|]. split; [auto|]. cbn [hk_nr hk_rkeys]. rewrite HK. auto.
  - destruct (key_expand_256_aesni_ok key old HK HO) as (rk & -> & Hrk). rewrite bind_Ok.
    change (Nat.eqb 32 16) with false. change (Nat.eqb 32 32) with true. cbv iota.
    eexists. split; [reflexivity|]. split; [auto|]. cbn [hk_nr hk_rkeys]. rewrite HK. auto.
Qed.

(** ---- ARM ---- *)
Lemma sbox_lt a : a < 256 -> sbox a < 256.
Proof.
  intros H. assert (forallb (fun i => sbox (N.of_nat i) <? 256) (seq 0 256) = true) as HA by (vm_compute; reflexivity).
  rewrite forallb_forall in HA. specialize (HA (N.to_nat a)). rewrite N2Nat.id in HA.
  apply N.ltb_lt, HA. apply in_seq. lia.
Qed.
Lemma vshl_slli a n : (n <= 16)%nat -> length a = 16%nat -> vshlq_n_u128 a n = mm_slli_si128 a n.
Proof.
  intros Hn Ha. unfold vshlq_n_u128, mm_slli_si128, vextq_u8, vdupq_n_u8.
  rewrite skipn_app, repeat_length.
  replace (16 - n - 16)%nat with 0%nat by lia. rewrite skipn_O.
  assert (skipn (16 - n) (repeat 0 16) = repeat 0 n) as ->.
  { clear -Hn. replace (repeat 0 16) with (repeat 0 (16 - n) ++ repeat 0 (16 - (16 - n))) by (rewrite <- repeat_app; f_equal; lia).
    rewrite skipn_app, repeat_length, Nat.sub_diag, skipn_all2 by (rewrite repeat_length; lia). cbn [skipn app].
    f_equal. lia. }
  rewrite firstn_app, repeat_length. rewrite firstn_all2 by (rewrite repeat_length; lia). reflexivity.
Qed.
Lemma SubWord_dup_spec a : length a = 16%nat ->
  SubWord_duplicate a = let t := SubWord (lane a 3) in t ++ t ++ t ++ t.
Proof.
  intros H. unfold SubWord_duplicate, vaeseq, vdupq_laneq_u32_u8, vdupq_n_u8, vxor.
  pose proof (lane_length a 3 H ltac:(lia)) as HL. set (d := lane a 3) in *. clearbody d.
  destruct (list4_inv d HL) as (d0 & d1 & d2 & d3 & ->).
  cbn [app repeat xorl]. rewrite !N.lxor_0_r. reflexivity.
Qed.
Lemma lxor_low a z r : a < 256 -> r < 256 -> N.lxor (a + 256 * z) r = N.lxor a r + 256 * z.
Proof.
  intros Ha Hr.
  assert (forall a z, a < 256 -> a + 256 * z = N.lor a (N.shiftl z 8)) as HE.
  { intros x y Hx. rewrite shl_lor_add by exact Hx. lia. }
  rewrite !HE; [|apply (lxor_lt _ _ 8); assumption|exact Ha].
  change 256 with (2 ^ 8) in Ha, Hr. rewrite N_lt_pow2_testbit in Ha, Hr.
  apply N.bits_inj. intro i. rewrite !N.lxor_spec, !N.lor_spec, N.lxor_spec.
  destruct (N.lt_ge_cases i 8) as [Hi|Hi].
  - rewrite N.shiftl_spec_low by exact Hi. rewrite !orb_false_r. reflexivity.
  - rewrite Ha, Hr by exact Hi. destruct (N.testbit (N.shiftl z 8) i); reflexivity.
Qed.
Lemma rot_word b0 b1 b2 b3 rcon : b0 < 256 -> b1 < 256 -> b2 < 256 -> b3 < 256 -> rcon < 256 ->
  let x := le_val [b0; b1; b2; b3] in
  le_bytes 4 (N.lxor (N.lor (N.shiftr x 8) (w32 (N.shiftl x (32 - 8)))) rcon) =
  [N.lxor b1 rcon; b2; b3; b0].
Proof.
  intros H0 H1 H2 H3 Hr x.
  assert (x = b0 + 256 * (b1 + 256 * (b2 + 256 * b3))) as Ex by (unfold x; cbn [le_val]; lia).
  assert (N.shiftr x 8 = b1 + 256 * (b2 + 256 * b3)) as ->.
  { rewrite N.shiftr_div_pow2, Ex. change (2 ^ 8) with 256.
    symmetry. apply (N.div_unique _ 256 _ b0); [exact H0|]. clear; lia. }
  assert (w32 (N.shiftl x (32 - 8)) = N.shiftl b0 24) as ->.
  { rewrite w32_mod, !N.shiftl_mul_pow2, Ex. change (2 ^ (32 - 8)) with 16777216. change (2 ^ 24) with 16777216. change (2 ^ 32) with 4294967296.
    symmetry. apply (N.mod_unique _ _ (b1 + 256 * (b2 + 256 * b3))); lia. }
  rewrite shl_lor_add by (change (2 ^ 24) with 16777216; lia). change (2 ^ 24) with 16777216.
  replace (b1 + 256 * (b2 + 256 * b3) + b0 * 16777216) with (b1 + 256 * (b2 + 256 * (b3 + 256 * b0))) by lia.
  rewrite lxor_low by assumption.
  assert (N.lxor b1 rcon < 256) as HX by (apply (lxor_lt _ _ 8); assumption).
  transitivity (le_bytes (length [N.lxor b1 rcon; b2; b3; b0]) (le_val [N.lxor b1 rcon; b2; b3; b0])).
  - f_equal. cbn [le_val]. lia.
  - apply le_bytes_le_val. repeat constructor; assumption.
Qed.
Lemma SubRot_spec a rcon : length a = 16%nat -> bytes_ok a -> rcon < 256 ->
  SubWord_RotWord_XOR_duplicate a rcon =
    let t := xorl (SubWord (RotWord (lane a 3))) [rcon; 0; 0; 0] in t ++ t ++ t ++ t.
Proof.
  intros H HO Hr. unfold SubWord_RotWord_XOR_duplicate. rewrite SubWord_dup_spec by exact H.
  pose proof (lane_length a 3 H ltac:(lia)) as HL.
  assert (bytes_ok (lane a 3)) as HLO by (apply Forall_sub; exact HO).
  set (d := lane a 3) in *. clearbody d.
  destruct (list4_inv d HL) as (d0 & d1 & d2 & d3 & ->).
  assert (d0 < 256 /\ d1 < 256 /\ d2 < 256 /\ d3 < 256) as (D0 & D1 & D2 & D3).
  { inversion HLO as [|? ? A0 HA]; inversion HA as [|? ? A1 HB]; inversion HB as [|? ? A2 HC]; inversion HC; auto. }
  change (lane (let t := SubWord [d0; d1; d2; d3] in t ++ t ++ t ++ t) 0) with [sbox d0; sbox d1; sbox d2; sbox d3].
  cbv zeta. rewrite rot_word by auto using sbox_lt.
  change (SubWord (RotWord [d0; d1; d2; d3])) with [sbox d1; sbox d2; sbox d3; sbox d0].
  cbn [xorl]. rewrite !N.lxor_0_r. reflexivity.
Qed.
Lemma vxor_length16 a b : length a = 16%nat -> length b = 16%nat -> length (vxor a b) = 16%nat.
Proof. intros Ha Hb. unfold vxor. rewrite xorl_length, Ha, Hb. reflexivity. Qed.
Lemma slli_length a n : (n <= 16)%nat -> length a = 16%nat -> length (mm_slli_si128 a n) = 16%nat.
Proof. intros Hn Ha. unfold mm_slli_si128. rewrite app_length, repeat_length, firstn_length. lia. Qed.
Lemma kstep_arm s a b c d t : s = a ++ b ++ c ++ d ->
  length a = 4%nat -> length b = 4%nat -> length c = 4%nat -> length d = 4%nat -> length t = 4%nat ->
  let s1 := vxor s (vshlq_n_u128 s 4) in
  let s2 := vxor s1 (vshlq_n_u128 s1 8) in
  vxor s2 (t ++ t ++ t ++ t) = kstep a b c d t.
Proof.
  intros Hs Ha Hb Hc Hd Ht.
  assert (length s = 16%nat) as HS by (rewrite Hs, !app_length; lia).
  cbv zeta. rewrite (vshl_slli s 4) by (auto; lia).
  rewrite (vshl_slli _ 8); [|lia|apply vxor_length16; [exact HS|apply slli_length; [lia|exact HS]]].
  apply (kstep_ni s a b c d t); auto.
Qed.

(** Round keys consist of bytes. *)
Lemma bytes_ok_xorl4 a b : bytes_ok a -> bytes_ok b -> bytes_ok (xorl a b).
Proof. apply bytes_ok_xorl. Qed.
Lemma SubWord_bytes w : bytes_ok w -> bytes_ok (SubWord w).
Proof. intros H. unfold SubWord. apply Forall_map. eapply Forall_impl; [|exact H]. intros a Ha. apply sbox_lt, Ha. Qed.
Lemma RotWord_bytes w : bytes_ok w -> bytes_ok (RotWord w).
Proof. intros H. unfold RotWord. apply Forall_app. split; [apply Forall_skipn|apply Forall_firstn]; exact H. Qed.
Lemma xtime_lt a : a < 256 -> xtime a < 256.
Proof.
  intros H. assert (forallb (fun i => xtime (N.of_nat i) <? 256) (seq 0 256) = true) as HA by (vm_compute; reflexivity).
  rewrite forallb_forall in HA. specialize (HA (N.to_nat a)). rewrite N2Nat.id in HA.
  apply N.ltb_lt, HA. apply in_seq. lia.
Qed.
Lemma Rcon_bytes i : bytes_ok (Rcon i).
Proof.
  unfold Rcon. constructor; [|repeat constructor].
  induction (i - 1)%nat as [|n IH]; [reflexivity|]. rewrite nat_iter_S. apply xtime_lt, IH.
Qed.
Lemma kexp_bytes key Nk : (Nk = 4 \/ Nk = 8)%nat -> length key = (4 * Nk)%nat -> bytes_ok key ->
  forall i, (i < 4 * (Nk + 6 + 1))%nat -> bytes_ok (nth i (KeyExpansion key) []).
Proof.
  intros HN HK HO. destruct (kexp_facts key Nk HN HK) as (K1 & K2 & K3 & K4).
  intros i. induction i as [i IH] using (well_founded_induction lt_wf). intros Hi.
  assert (i < Nk \/ Nk <= i)%nat as [Hc|Hc] by lia.
  - rewrite K2 by exact Hc. apply Forall_sub, HO.
  - rewrite K3 by lia. apply bytes_ok_xorl; [apply IH; lia|].
    assert (bytes_ok (nth (i - 1) (KeyExpansion key) [])) as HP by (apply IH; lia).
    unfold kexp_temp. destruct (Nat.eqb (i mod Nk) 0).
    + apply bytes_ok_xorl; [apply SubWord_bytes, RotWord_bytes, HP|apply Rcon_bytes].
    + destruct (Nat.ltb 6 Nk && Nat.eqb (i mod Nk) 4); [apply SubWord_bytes|]; exact HP.
Qed.
Lemma round_key_bytes key Nk j : (Nk = 4 \/ Nk = 8)%nat -> length key = (4 * Nk)%nat -> bytes_ok key ->
  (j <= Nk + 6)%nat -> bytes_ok (round_key (KeyExpansion key) j).
Proof.
  intros HN HK HO Hj. destruct (kexp_facts key Nk HN HK) as (K1 & _).
  rewrite round_key_words by lia.
  pose proof (kexp_bytes key Nk HN HK HO) as HB. unfold bytes_ok in *.
  rewrite !Forall_app. repeat split; apply HB; lia.
Qed.

Lemma MKRKEY128_arm_ok key rk i rcon : length key = 16%nat -> bytes_ok key -> has_keys (KeyExpansion key) i rk ->
  (1 <= i <= 10)%nat -> Rcon i = [rcon; 0; 0; 0] -> rcon < 256 ->
  exists rk', MKRKEY128_arm rk i rcon = Ok rk' /\ has_keys (KeyExpansion key) (S i) rk'.
Proof.
  intros HK HO Hrk Hi HR Hr. unfold MKRKEY128_arm. rewrite (rdv_keys _ _ _ _ Hrk) by lia. rewrite !bind_Ok.
  pose proof (kexp_facts key 4 (or_introl eq_refl) HK) as (K1 & _ & _ & K4).
  pose proof (round_key_step key 4 (or_introl eq_refl) HK i ltac:(lia) ltac:(lia)) as (S1 & S2 & S3).
  pose proof (round_key_length key 4 (or_introl eq_refl) HK (i - 1) ltac:(lia)) as SL.
  pose proof (round_key_bytes key 4 (i - 1) (or_introl eq_refl) HK HO ltac:(lia)) as SB.
  change (4 / 4)%nat with 1%nat in S1, S2.
  apply wrv_keys; [exact Hrk|lia|].
  rewrite SubRot_spec by assumption. cbv zeta.
  rewrite S1, kt4 by lia. rewrite HR, S3.
  apply kstep_arm; [exact S2|apply K4; lia|apply K4; lia|apply K4; lia|apply K4; lia|].
  apply (temp_len true). apply lane_length; [exact SL|lia].
Qed.
Lemma MKRKEY256_arm_ok key rk i (rot : bool) rcon : length key = 32%nat -> bytes_ok key -> has_keys (KeyExpansion key) i rk ->
  (2 <= i <= 14)%nat -> rcon < 256 ->
  (if rot then exists k, i = (2 * k)%nat /\ Rcon k = [rcon; 0; 0; 0]
   else exists k, i = (2 * k + 1)%nat) ->
  exists rk', MKRKEY256_arm rk i rcon = Ok rk' /\ has_keys (KeyExpansion key) (S i) rk'.
Proof.
  intros HK HO Hrk Hi Hr HR. unfold MKRKEY256_arm. rewrite !(rdv_keys _ _ _ _ Hrk) by lia. rewrite !bind_Ok.
  pose proof (kexp_facts key 8 (or_intror eq_refl) HK) as (K1 & _ & _ & K4).
  pose proof (round_key_step key 8 (or_intror eq_refl) HK i ltac:(lia) ltac:(lia)) as (S1 & S2 & S3).
  pose proof (round_key_length key 8 (or_intror eq_refl) HK (i - 1) ltac:(lia)) as SL.
  pose proof (round_key_bytes key 8 (i - 1) (or_intror eq_refl) HK HO ltac:(lia)) as SB.
  change (8 / 4)%nat with 2%nat in S1, S2.
  apply wrv_keys; [exact Hrk|lia|].
  destruct rot; destruct HR as [k HR].
  - destruct HR as [Hk HR].
    assert (Nat.eqb (i mod 2) 1 = false) as ->.
    { rewrite Hk, Nat.mul_comm, Nat.mod_mul by lia. reflexivity. }
    rewrite SubRot_spec by assumption. cbv zeta. rewrite S1, S3.
    rewrite (kt8_even i k _ Hk), HR.
    apply kstep_arm; [exact S2|apply K4; lia|apply K4; lia|apply K4; lia|apply K4; lia|].
    apply (temp_len true). apply lane_length; [exact SL|lia].
  - assert (Nat.eqb (i mod 2) 1 = true) as ->.
    { rewrite HR. replace (2 * k + 1)%nat with (1 + k * 2)%nat by lia. rewrite Nat.mod_add by lia. reflexivity. }
    rewrite SubWord_dup_spec by exact SL. cbv zeta. rewrite S1, S3.
    rewrite (kt8_odd i k _ HR).
    apply kstep_arm; [exact S2|apply K4; lia|apply K4; lia|apply K4; lia|apply K4; lia|].
    apply (temp_len false _ 0). apply lane_length; [exact SL|lia].
Qed.
Theorem key_expand_128_arm_ok key old : length key = 16%nat -> bytes_ok key -> length old = 15%nat ->
  exists rk, key_expand_128_arm key old = Ok rk /\ has_keys (KeyExpansion key) 11 rk.
Proof.
  intros HK HB HO. unfold key_expand_128_arm, vld16. rewrite rd_ok by lia. rewrite bind_Ok.
  assert (has_keys (KeyExpansion key) 0 old) as H0 by (split; [exact HO|intros; lia]).
  destruct (wrv_keys (KeyExpansion key) 0 old (sub key 0 16) H0 ltac:(lia)) as (rk & -> & Hrk).
  { symmetry. apply (round_key_0 key 4); auto. }
  rewrite bind_Ok. clear H0. unfold rcons128_arm.
  repeat (rewrite seqm_cons; cbn [fst snd];
    match goal with H : has_keys _ _ ?rk |- context [MKRKEY128_arm ?rk ?i ?rc] =>
      let rk' := fresh "rk" in let H' := fresh "H" in
      destruct (MKRKEY128_arm_ok key rk i rc HK HB H ltac:(lia) ltac:(vm_compute; reflexivity) ltac:(reflexivity)) as (rk' & -> & H');
      rewrite bind_Ok; clear H end).
  rewrite seqm_nil. eauto.
Qed.
Theorem key_expand_256_arm_ok key old : length key = 32%nat -> bytes_ok key -> length old = 15%nat ->
  exists rk, key_expand_256_arm key old = Ok rk /\ has_keys (KeyExpansion key) 15 rk.
Proof.
  intros HK HB HO. unfold key_expand_256_arm, vld16. rewrite !rd_ok by lia. rewrite bind_Ok.
  assert (has_keys (KeyExpansion key) 0 old) as H0 by (split; [exact HO|intros; lia]).
  destruct (wrv_keys (KeyExpansion key) 0 old (sub key 0 16) H0 ltac:(lia)) as (rk & -> & Hrk).
  { symmetry. apply (round_key_0 key 8); auto. }
  rewrite !bind_Ok. clear H0.
  destruct (wrv_keys (KeyExpansion key) 1 rk (sub key 16 16) Hrk ltac:(lia)) as (rk0 & -> & Hrk0).
  { symmetry. apply round_key_1; auto. }
  rewrite bind_Ok. clear Hrk. unfold rcons256_arm.
  repeat (rewrite seqm_cons; cbn [fst snd];
    match goal with H : has_keys _ ?n ?rk |- context [MKRKEY256_arm ?rk ?i ?rc] =>
      let rk' := fresh "rk" in let H' := fresh "H" in
      let p := eval vm_compute in (Nat.even n) in
      let k := eval vm_compute in (Nat.div2 n) in
      destruct (MKRKEY256_arm_ok key rk i p rc HK HB H ltac:(lia) ltac:(reflexivity)
         ltac:(exists k; first [split; [reflexivity|vm_compute; reflexivity]|reflexivity])) as (rk' & -> & H');
      rewrite bind_Ok; clear H end).
  rewrite seqm_nil. eauto.
Qed.
Theorem expand_arm_ok key old : (length key = 16 \/ length key = 32)%nat -> bytes_ok key -> length old = 15%nat ->
  exists hk, crypto_aes_key_expand_arm true old key (length key) = Ok (Some hk) /\ hw_key_for key hk.
Proof.
  intros HL HB HO. unfold crypto_aes_key_expand_arm. cbn [negb]. cbv iota.
  destruct HL as [HK|HK]; rewrite HK.
  - destruct (key_expand_128_arm_ok key old HK HB HO) as (rk & -> & Hrk). rewrite bind_Ok.
    change (Nat.eqb 16 16) with true. cbv iota.
    eexists. split; [reflexivity|]. split; [auto|]. cbn [hk_nr hk_rkeys]. rewrite HK. auto.
  - destruct (key_expand_256_arm_ok key old HK HB HO) as (rk & -> & Hrk). rewrite bind_Ok.
    change (Nat.eqb 32 16) with false. change (Nat.eqb 32 32) with true. cbv iota.
    eexists. split; [reflexivity|]. split; [auto|]. cbn [hk_nr hk_rkeys]. rewrite HK. auto.
Qed.
Lemma vaese_len s k : length (vaesmcq (vaeseq s k)) = 16%nat. Proof. reflexivity. Qed.
Lemma aese_seq_ok w n rk : has_keys w n rk -> (forall j, (j < n)%nat -> length (round_key w j) = 16%nat) ->
  forall m a s, (a + m < n)%nat -> length s = 16%nat ->
  exists v, aese_seq rk (seq a m) s = Ok v /\ length v = 16%nat /\
    vxor v (round_key w (a + m)) = fold_left (aes_round w) (seq (S a) m) (vxor s (round_key w a)).
Proof.
  intros Hrk HL. induction m as [|m IH]; intros a s Ha Hs.
  - exists s. split; [reflexivity|]. split; [exact Hs|]. rewrite Nat.add_0_r. reflexivity.
  - cbn [seq]. unfold aese_seq. rewrite seqm_cons, (rdv_keys _ _ _ _ Hrk) by lia. rewrite !bind_Ok.
    destruct (IH (S a) (vaesmcq (vaeseq s (round_key w a))) ltac:(lia) (vaese_len _ _)) as (v & E & Lv & EV).
    exists v. split; [exact E|]. split; [exact Lv|].
    replace (a + S m)%nat with (S a + m)%nat by lia. rewrite EV. cbn [fold_left]. f_equal.
    unfold vaesmcq, vaeseq, aes_round, AddRoundKey, vxor.
    rewrite shift_sub_comm; [reflexivity|]. apply vxor_length16; [exact Hs|apply HL; lia].
Qed.
Theorem arm_encrypt_ok key hk inp : hw_key_for key hk -> length inp = 16%nat ->
  crypto_aes_encrypt_block_arm_u8 inp hk = Ok (aes_encrypt key inp).
Proof.
  intros (HL & Hnr & Hrk) Hin. unfold crypto_aes_encrypt_block_arm_u8, aes_encrypt, Cipher.
  destruct (Nk_cases key HL) as (Nk & HNk & HK).
  pose proof (round_key_length key Nk HNk HK) as RL.
  set (w := KeyExpansion key) in *.
  assert (hk_nr hk = (Nk + 6)%nat) as HNr.
  { rewrite Hnr, HK, Nat.mul_comm, Nat.div_mul by lia. reflexivity. }
  rewrite <- Hnr. rewrite HNr in *.
  assert (forall j, (j < Nk + 6 + 1)%nat -> length (round_key w j) = 16%nat) as RL' by (intros j Hj; apply RL; lia).
  destruct (aese_seq_ok w (Nk + 6 + 1) (hk_rkeys hk) Hrk RL' 9 0 inp ltac:(lia) Hin) as (v & E1 & L1 & V1).
  change (seq 0 9) with [0;1;2;3;4;5;6;7;8]%nat in E1. rewrite E1, bind_Ok.
  destruct HNk as [-> | ->].
  - change (Nat.ltb 10 (4 + 6)) with false. cbv iota. rewrite bind_Ok.
    rewrite !(rdv_keys _ _ _ _ Hrk) by lia. rewrite !bind_Ok. f_equal.
    unfold vaeseq. rewrite shift_sub_comm by (apply vxor_length16; [exact L1|apply RL; lia]).
    change (4 + 6 - 1)%nat with (0 + 9)%nat. rewrite V1. reflexivity.
  - change (Nat.ltb 10 (8 + 6)) with true. cbv iota.
    destruct (aese_seq_ok w (8 + 6 + 1) (hk_rkeys hk) Hrk RL' 4 9 v ltac:(lia) L1) as (v2 & E2 & L2 & V2).
    change (seq 9 4) with [9;10;11;12]%nat in E2. rewrite E2, bind_Ok.
    rewrite !(rdv_keys _ _ _ _ Hrk) by lia. rewrite !bind_Ok. f_equal.
    unfold vaeseq. rewrite shift_sub_comm by (apply vxor_length16; [exact L2|apply RL; lia]).
    change (8 + 6 - 1)%nat with (9 + 4)%nat. rewrite V2. change 9%nat with (0 + 9)%nat at 2. rewrite V1.
    rewrite <- fold_left_app. reflexivity.
Qed.
Lemma aes_encrypt_length key inp : (length key = 16 \/ length key = 32)%nat -> length inp = 16%nat ->
  length (aes_encrypt key inp) = 16%nat.
Proof.
  intros HL Hin. unfold aes_encrypt, Cipher.
  destruct (Nk_cases key HL) as (Nk & HNk & HK).
  unfold AddRoundKey. rewrite xorl_length, ShiftRows_length.
  rewrite (round_key_length key Nk HNk HK) by (rewrite HK, Nat.mul_comm, Nat.div_mul; lia). reflexivity.
Qed.
