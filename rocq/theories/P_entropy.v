(** Correctness of entropy_read and crypto_entropy_read. *)
From Verif Require Import Base SpecBytes SpecSHA SpecDRBG M_sha256_tr M_simd M_sha256_hw M_sha256 P_sha256 M_entropy P_endian P_scrypt_ref.

(* ---------------- entropy_read ------------------------------------------ *)
(** [delivers os k n d]: successive reads number k, k+1, ... of the device
    deliver the n bytes d, none of them failing or returning end of file. *)
Inductive delivers (os : os_ent) : nat -> nat -> bytes -> Prop :=
| del_done k : delivers os k 0 []
| del_read k n avail rest : (0 < n)%nat -> oe_read os k = Some avail -> firstn n avail <> [] ->
    delivers os (S k) (n - length (firstn n avail)) rest ->
    delivers os k n (firstn n avail ++ rest).
Definition is_read (e : ent_event) : Prop := match e with Ev_read want _ => 0 < want | _ => False end.
Definition read_data (e : ent_event) : bytes := match e with Ev_read _ (Some d) => d | _ => [] end.

Lemma delivers_length os k n d : delivers os k n d -> length d = n.
Proof.
  induction 1 as [|k n avail rest Hn HR Hne Hd IH]; [reflexivity|].
  rewrite app_length, IH. pose proof (firstn_le_length n avail). 
  assert (length (firstn n avail) <= n)%nat by (rewrite firstn_length; lia). lia.
Qed.
Lemma delivers_det os k n d1 : delivers os k n d1 -> forall d2, delivers os k n d2 -> d1 = d2.
Proof.
  induction 1 as [|k n avail rest Hn HR Hne Hd IH]; intros d2 H2; inversion H2; subst; try lia; auto.
  assert (avail0 = avail) by congruence. subst. f_equal. apply IH. assumption.
Qed.
Lemma fill_spec os : forall fuel i n, (N.to_nat n <= fuel)%nat -> n < 2 ^ 64 ->
  exists r ev, fill_loop os fuel i n = Ok (r, ev) /\ Forall is_read ev /\
    (forall d, r = Some d <-> delivers os i (N.to_nat n) d) /\
    (forall d, r = Some d -> d = concat (map read_data ev)).
Proof.
  induction fuel as [|f IH]; intros i n Hf Hn; cbn [fill_loop].
  - assert (n = 0) as -> by lia. change (0 <? 0) with false. cbv iota.
    exists (Some []), []. split; [reflexivity|]. split; [constructor|]. split.
    + intros d. split; [intros E; injection E as <-; constructor|intros H; inversion H; subst; [reflexivity|lia]].
    + intros d E. injection E as <-. reflexivity.
  - destruct (N.ltb_spec 0 n) as [Hp|Hz].
    2: { assert (n = 0) as -> by lia. exists (Some []), []. split; [reflexivity|]. split; [constructor|]. split.
         - intros d. split; [intros E; injection E as <-; constructor|intros H; inversion H; subst; [reflexivity|lia]].
         - intros d E. injection E as <-. reflexivity. }
    destruct (oe_read os i) as [avail|] eqn:ER.
    2: { exists None, [Ev_read n None]. split; [reflexivity|]. split; [repeat constructor; exact Hp|].
         split; [|discriminate]. intros d. split; [discriminate|]. intros H; inversion H; subst; [lia|congruence]. }
    set (got := firstn (N.to_nat n) avail).
    assert (length got <= N.to_nat n)%nat as HL by (unfold got; rewrite firstn_length; lia).
    destruct (N.eqb_spec (N.of_nat (length got)) 0) as [E0|E0].
    + exists None, [Ev_read n (Some [])]. split; [reflexivity|]. split; [repeat constructor; exact Hp|].
      split; [|discriminate]. intros d. split; [discriminate|]. intros H; inversion H; subst; [lia|].
      assert (avail0 = avail) by congruence. subst avail0. fold got in H2. destruct got; [congruence|discriminate].
    + assert (w64 (2 ^ 64 + n - N.of_nat (length got)) = n - N.of_nat (length got)) as ->.
      { rewrite w64_mod. replace (2 ^ 64 + n - N.of_nat (length got)) with (n - N.of_nat (length got) + 1 * 2 ^ 64) by lia.
        rewrite N.mod_add by discriminate. apply N.mod_small. lia. }
      destruct (IH (S i) (n - N.of_nat (length got)) ltac:(lia) ltac:(lia)) as (r & ev & -> & HF & HD & HC).
      rewrite bind_Ok. exists (option_map (app got) r), (Ev_read n (Some got) :: ev).
      split; [reflexivity|]. split; [constructor; [exact Hp|exact HF]|].
      replace (N.to_nat (n - N.of_nat (length got))) with (N.to_nat n - length got)%nat in HD by lia.
      assert (got <> []) as Hne by (intros ->; apply E0; reflexivity). split.
      * intros d. split.
        -- destruct r as [d'|]; [|discriminate]. intros E. injection E as <-.
           apply del_read; [lia|exact ER|exact Hne|]. apply HD. reflexivity.
        -- intros H; inversion H; subst; [lia|]. assert (avail0 = avail) by congruence. subst avail0.
           apply HD in H3. subst r. reflexivity.
      * intros d. destruct r as [d'|]; [|discriminate]. intros E. injection E as <-.
        cbn [map concat read_data]. f_equal. apply HC. reflexivity.
Qed.

Lemma entropy_read_spec os n : n <= SSIZE_MAX ->
  exists r ev, entropy_read os n = Ok (r, ev) /\
    (forall d, r = Some d <-> oe_malloc os = true /\ oe_open os = true /\ oe_close os = true /\ delivers os 0 (N.to_nat n) d) /\
    (forall d, r = Some d -> d = concat (map read_data ev)) /\
    match oe_malloc os, oe_open os with
    | false, _ => ev = [Ev_malloc false]
    | true, false => ev = [Ev_malloc true; Ev_open false; Ev_free]
    | true, true => exists reads, Forall is_read reads /\
        ev = [Ev_malloc true; Ev_open true] ++ reads ++ repeat Ev_close_eintr (oe_eintr os) ++ [Ev_close (oe_close os); Ev_free]
    end.
Proof.
  intros Hn. unfold entropy_read, entropy_read_fill.
  assert (n <=? SSIZE_MAX = true) as -> by (apply N.leb_le; exact Hn). cbn [assert_]. rewrite bind_Ok.
  destruct (oe_malloc os) eqn:EM; cbn [negb].
  2: { exists None, [Ev_malloc false]. split; [reflexivity|]. split; [|split; [discriminate|reflexivity]].
       intros d; split; [discriminate|]. intros (? & _); discriminate. }
  destruct (oe_open os) eqn:EO; cbn [negb].
  2: { exists None, [Ev_malloc true; Ev_open false; Ev_free]. split; [reflexivity|]. split; [|split; [discriminate|reflexivity]].
       intros d; split; [discriminate|]. intros (_ & ? & _); discriminate. }
  rewrite bind_Ok.
  destruct (fill_spec os (N.to_nat n) 0 n (le_n _)) as (r & ev & -> & HF & HD & HC).
  { unfold SSIZE_MAX in Hn. lia. }
  rewrite bind_Ok. unfold entropy_read_done.
  assert (forall f, f ++ repeat Ev_close_eintr (oe_eintr os) ++ [Ev_close (oe_close os); Ev_free] =
     f ++ repeat Ev_close_eintr (oe_eintr os) ++ [Ev_close (oe_close os); Ev_free]) as _ by reflexivity.
  assert (forall b k, concat (map read_data (repeat Ev_close_eintr k ++ [Ev_close b; Ev_free])) = []) as HZ.
  { intros b k. induction k as [|k IHk]; [reflexivity|exact IHk]. }
  destruct r as [d|].
  - destruct (oe_close os) eqn:EC.
    + eexists _, _. split; [reflexivity|]. split; [|split].
      * intros d'. split.
        -- intros E. injection E as <-. repeat (split; [reflexivity|]). apply HD. reflexivity.
        -- intros (_ & _ & _ & H). apply HD in H. exact H.
      * intros d' E. injection E as <-. cbn [map concat read_data app]. rewrite map_app, concat_app, HZ, app_nil_r.
        apply HC. reflexivity.
      * exists ev. split; [exact HF|reflexivity].
    + eexists _, _. split; [reflexivity|]. split; [|split].
      * intros d'. split; [discriminate|]. intros (_ & _ & ? & _). discriminate.
      * discriminate.
      * exists ev. split; [exact HF|reflexivity].
  - eexists _, _. split; [reflexivity|]. split; [|split].
    + intros d'. split; [discriminate|]. intros (_ & _ & _ & H). apply HD in H. discriminate.
    + discriminate.
    + exists ev. split; [exact HF|]. reflexivity.
Qed.

(* ---------------- HMAC_DRBG --------------------------------------------- *)
Definition kv_ok (K V : bytes) : Prop := length K = 32%nat /\ length V = 32%nat /\ bytes_ok K /\ bytes_ok V.

Lemma split33 (l : bytes) : length l = 33%nat -> exists a b, l = a ++ [b] /\ length a = 32%nat.
Proof.
  intros H. exists (firstn 32 l), (nth 32 l 0). split.
  - rewrite <- (firstn_skipn 32 l) at 1. f_equal.
    assert (length (skipn 32 l) = 1%nat) as HL by (rewrite skipn_length; lia).
    rewrite <- (firstn_skipn 32 l) at 2. rewrite app_nth2; rewrite firstn_length_le by lia; [|lia].
    rewrite Nat.sub_diag. destruct (skipn 32 l) as [|x [|y t]]; try discriminate. reflexivity.
  - rewrite firstn_length. lia.
Qed.
Lemma wr_first (a a' : bytes) b : length a = 32%nat -> length a' = 32%nat -> wr (a ++ [b]) 0 a' = Ok (a' ++ [b]).
Proof.
  intros Ha Ha'. rewrite wr_ok by (rewrite app_length; cbn [length]; lia). f_equal.
  unfold upd. cbn [firstn app]. rewrite skipn_app, Ha, Ha'. rewrite skipn_all2 by lia. reflexivity.
Qed.
Lemma wr_33 (a : bytes) b c : length a = 32%nat -> wr (a ++ [b]) 32 [c] = Ok (a ++ [c]).
Proof.
  intros Ha. rewrite wr_ok by (rewrite app_length; cbn [length]; lia). f_equal.
  rewrite <- Ha. apply upd_tail. reflexivity.
Qed.
Lemma rd_first (a : bytes) b : length a = 32%nat -> rd (a ++ [b]) 0 32 = Ok a.
Proof.
  intros Ha. rewrite rd_ok by (rewrite app_length; lia). f_equal. unfold sub. cbn [skipn].
  rewrite firstn_app, Ha, Nat.sub_diag, firstn_O, app_nil_r. rewrite <- Ha. apply firstn_all.
Qed.
Lemma rd_all (a : bytes) n : length a = n -> rd a 0 n = Ok a.
Proof. intros H. rewrite rd_ok by lia. f_equal. apply sub_0_all. symmetry. exact H. Qed.
Lemma bytes_ok_one b : b < 256 -> bytes_ok [b].
Proof. repeat constructor. assumption. Qed.

(** One HMAC over Vx || data, as computed twice in update. *)
Lemma hmac_two hw junk ctx K a b : length (c_buf (h_ictx ctx)) = 64%nat -> length (c_buf (h_octx ctx)) = 64%nat ->
  bytes_ok K -> bytes_ok a -> bytes_ok b ->
  forall B (k : bytes * hmac_ctx -> res B),
  (ctx <- HMAC_SHA256_Init hw junk ctx K ;;
   ctx <- HMAC_SHA256_Update hw junk ctx a ;;
   ctx <- HMAC_SHA256_Update hw junk ctx b ;;
   r <- HMAC_SHA256_Final hw junk ctx ;; k r) = k (hmac K (a ++ b), hmac_zero).
Proof.
  intros H1 H2 HK Ha Hb B k.
  destruct (HMAC_Init_correct hw junk ctx K H1 H2 HK) as (c & -> & Hc). rewrite bind_Ok.
  destruct (HMAC_Update_correct hw junk c K [] a Hc Ha) as (c2 & -> & Hc2). rewrite bind_Ok.
  destruct (HMAC_Update_correct hw junk c2 K ([] ++ a) b Hc2 Hb) as (c3 & -> & Hc3). rewrite bind_Ok.
  rewrite (HMAC_Final_correct hw junk c3 K _ Hc3), bind_Ok. reflexivity.
Qed.

Lemma update_ok hw junk K0 V0 data : kv_ok K0 V0 -> bytes_ok data ->
  exists K V, HMAC_DRBG_Update data K0 V0 = (K, V) /\ kv_ok K V /\
    forall i c, update hw junk (mk_drbg i K0 V0 c) data = Ok (mk_drbg i K V c).
Proof.
  intros (HK & HV & HKo & HVo) Hd.
  set (K1 := hmac K0 ((V0 ++ [0]) ++ data)).
  assert (bytes_ok K1) as HK1 by apply hmac_ok. assert (length K1 = 32%nat) as HL1 by apply hmac_length.
  set (V1 := hmac K1 V0).
  assert (bytes_ok V1) as HV1 by apply hmac_ok. assert (length V1 = 32%nat) as HLV1 by apply hmac_length.
  set (K2 := hmac K1 ((V1 ++ [1]) ++ data)).
  assert (bytes_ok K2) as HK2 by apply hmac_ok. assert (length K2 = 32%nat) as HL2 by apply hmac_length.
  set (V2 := hmac K2 V1).
  assert (bytes_ok V2) as HV2 by apply hmac_ok. assert (length V2 = 32%nat) as HLV2 by apply hmac_length.
  assert (forall x, x < 256 -> forall V, bytes_ok V -> bytes_ok (V ++ [x])) as HB.
  { intros x Hx V Hv. apply bytes_ok_app. split; [exact Hv|apply bytes_ok_one; exact Hx]. }
  destruct (split33 (scratch_bytes junk 33) (scratch_bytes_length _ _)) as (a & b & Es & Ha).
  exists (match data with [] => K1 | _ => K2 end), (match data with [] => V1 | _ => V2 end).
  split; [|split].
  - unfold HMAC_DRBG_Update. rewrite !app_assoc. fold K1. fold V1. fold K2. fold V2. destruct data; reflexivity.
  - destruct data; split; auto.
  - intros i c. unfold update. cbn [d_Key d_V d_inst d_ctr]. rewrite Es.
    rewrite wr_first, bind_Ok, wr_33, bind_Ok by assumption.
    rewrite hmac_two; [|apply sha_junk_buf|apply sha_junk_buf|assumption|apply HB; [lia|assumption]|assumption].
    rewrite rd_first, bind_Ok by assumption. fold K1.
    rewrite (HMAC_SHA256_Buf_correct hw junk K1 V0 HK1 HVo), bind_Ok. fold V1.
    rewrite wr_first, bind_Ok by assumption.
    destruct data as [|x t].
    + cbn [length Nat.eqb negb]. rewrite bind_Ok. rewrite (rd_all K1) by assumption. rewrite bind_Ok.
      rewrite rd_first, bind_Ok by assumption. reflexivity.
    + change (Nat.eqb (length (x :: t)) 0) with false. cbn [negb].
      rewrite wr_33, bind_Ok by assumption.
      rewrite hmac_two; [|reflexivity|reflexivity|assumption|apply HB; [lia|assumption]|assumption].
      rewrite rd_first, bind_Ok by assumption. fold K2.
      rewrite (HMAC_SHA256_Buf_correct hw junk K2 V1 HK2 HV1), bind_Ok. fold V2.
      rewrite wr_first, !bind_Ok by assumption. rewrite (rd_all K2) by assumption. rewrite bind_Ok.
      rewrite rd_first, bind_Ok by assumption. reflexivity.
Qed.

(** What the operating system and the CPU may deliver: bytes. *)
Definition env_bytes (E : ent_env) : Prop :=
  (forall k i d, oe_read (ce_os E k) i = Some d -> bytes_ok d) /\
  (forall k i w, ce_step E k i = Some w -> w < 2 ^ 32).
(** The seed obtained by the k-th entropy_read asking for n bytes. *)
Definition seed_of (E : ent_env) (k n : nat) (d : bytes) : Prop :=
  oe_malloc (ce_os E k) = true /\ oe_open (ce_os E k) = true /\ oe_close (ce_os E k) = true /\
  delivers (ce_os E k) 0 n d.
(** The words of [n] successive RDRAND instructions, from the i-th on, if all succeed. *)
Fixpoint rdrand_words (step : nat -> option N) (i n : nat) : option (list N) :=
  match n with
  | O => Some []
  | S n' => match step i with Some v => option_map (cons v) (rdrand_words step (S i) n') | None => None end
  end.
Definition mix_ops (E : ent_env) (k : nat) : list drbg_op :=
  if ce_rdrand E then match rdrand_words (ce_step E k) 0 8 with
    Some ws => [Op_mix (flat_map (le_bytes 4) ws)] | None => [] end else [].
Lemma generate_seed_ok step : forall n a b, length b = n ->
  generate_seed_rdrand step (length a) n (a ++ b) = Ok (option_map (app a) (rdrand_words step (length a) n)).
Proof.
  induction n as [|n IH]; intros a b HL; cbn [generate_seed_rdrand rdrand_words].
  - destruct b; [|discriminate]. reflexivity.
  - destruct (step (length a)) as [v|]; [|reflexivity]. destruct b as [|x b]; [discriminate|].
    assert (wr (a ++ x :: b) (length a) [v] = Ok ((a ++ [v]) ++ b)) as ->.
    { unfold wr, upd. cbn [length]. rewrite app_length. cbn [length].
      destruct (Nat.leb_spec (length a + 1) (length a + S (length b))); [|lia].
      rewrite firstn_app, Nat.sub_diag, firstn_all, firstn_O, app_nil_r, <- app_assoc.
      rewrite skipn_app, skipn_all2 by lia. replace (length a + 1 - length a)%nat with 1%nat by lia. reflexivity. }
    rewrite bind_Ok. specialize (IH (a ++ [v]) b ltac:(cbn in HL; lia)).
    rewrite app_length in IH. cbn [length] in IH. rewrite Nat.add_1_r in IH. rewrite IH.
    destruct (rdrand_words step (S (length a)) n); cbn [option_map]; [rewrite <- app_assoc|]; reflexivity.
Qed.
Lemma flat_le_ok ws : bytes_ok (flat_map (le_bytes 4) ws).
Proof. induction ws as [|w ws IH]; cbn [flat_map]; [constructor|]. apply bytes_ok_app. split; [apply le_bytes_ok|exact IH]. Qed.
Lemma rdrand_words_spec step : forall n i ws, rdrand_words step i n = Some ws <->
  length ws = n /\ forall j, (j < n)%nat -> step (i + j)%nat = Some (nth j ws 0).
Proof.
  induction n as [|n IH]; intros i ws; cbn [rdrand_words].
  - split; [intros E; injection E as <-; split; [reflexivity|intros j Hj; lia]|].
    intros [HL _]. destruct ws; [reflexivity|discriminate].
  - split.
    + destruct (step i) as [v|] eqn:Es; [|discriminate]. destruct (rdrand_words step (S i) n) as [t|] eqn:Et; [|discriminate].
      cbn [option_map]. intros E. injection E as <-. apply IH in Et. destruct Et as [HL HS]. split; [cbn; lia|].
      intros [|j] Hj; cbn [nth]; [rewrite Nat.add_0_r; exact Es|]. rewrite <- HS by lia. f_equal. lia.
    + intros [HL HS]. destruct ws as [|v t]; [discriminate|]. pose proof (HS 0%nat ltac:(lia)) as H0. rewrite Nat.add_0_r in H0.
      cbn [nth] in H0. rewrite H0. assert (rdrand_words step (S i) n = Some t) as ->; [|reflexivity].
      apply IH. split; [cbn in HL; lia|]. intros j Hj. specialize (HS (S j) ltac:(lia)). cbn [nth] in HS. rewrite <- HS. f_equal. lia.
Qed.
Lemma rdrand_words_none step : forall n i, rdrand_words step i n = None <-> exists j, (j < n)%nat /\ step (i + j)%nat = None.
Proof.
  induction n as [|n IH]; intros i; cbn [rdrand_words].
  - split; [discriminate|]. intros (j & Hj & _). lia.
  - destruct (step i) as [v|] eqn:Es.
    + split.
      * intros H. destruct (rdrand_words step (S i) n) eqn:Et; [discriminate|]. apply IH in Et. destruct Et as (j & Hj & HS).
        exists (S j). split; [lia|]. rewrite <- HS. f_equal. lia.
      * intros (j & Hj & HS). destruct j as [|j]; [rewrite Nat.add_0_r in HS; congruence|].
        assert (rdrand_words step (S i) n = None) as ->; [|reflexivity]. apply IH. exists j. split; [lia|]. rewrite <- HS. f_equal. lia.
    + split; [|reflexivity]. intros _. exists 0%nat. rewrite Nat.add_0_r. split; [lia|exact Es].
Qed.

Lemma delivers_bytes os k n d : (forall i d, oe_read os i = Some d -> bytes_ok d) -> delivers os k n d -> bytes_ok d.
Proof.
  intros H. induction 1 as [|k n avail rest Hn HR Hne Hd IH]; [constructor|].
  apply bytes_ok_app. split; [|exact IH]. apply Forall_firstn. exact (H _ _ HR).
Qed.

Definition spec_of (st : drbg) : drbg_state := (d_Key st, d_V st, d_ctr st).

Lemma mix_ok hw junk E k K V : env_bytes E -> kv_ok K V ->
  exists K' V', kv_ok K' V' /\
    (forall i c, update_from_rdrand hw junk E k (mk_drbg i K V c) = Ok (mk_drbg i K' V' c)) /\
    (forall c ops, drbg_run (Some (K, V, c)) (mix_ops E k ++ ops) = drbg_run (Some (K', V', c)) ops).
Proof.
  intros _ Hk. unfold update_from_rdrand, mix_ops. destruct (ce_rdrand E).
  - pose proof (generate_seed_ok (ce_step E k) 8 [] (map junk (seq 0 8)) ltac:(rewrite map_length, seq_length; reflexivity)) as HG.
    cbn [length app] in HG.
    destruct (rdrand_words (ce_step E k) 0 8) as [ws|]; cbn [option_map app] in HG.
    + destruct (update_ok hw junk K V (flat_map (le_bytes 4) ws) Hk (flat_le_ok ws)) as (K' & V' & EU & Hkv & HE).
      exists K', V'. split; [exact Hkv|]. split; [intros i c; rewrite HG, bind_Ok; apply HE|].
      intros c ops. cbn [app drbg_run]. unfold HMAC_DRBG_Mix. rewrite EU. reflexivity.
    + exists K, V. split; [exact Hk|]. split; [|reflexivity]. intros i c. rewrite HG, bind_Ok. reflexivity.
  - exists K, V. split; [exact Hk|]. split; reflexivity.
Qed.

Lemma entropy_read_cases E k n : env_bytes E -> (N.of_nat n <= SSIZE_MAX) ->
  (exists d ev, entropy_read (ce_os E k) (N.of_nat n) = Ok (Some d, ev) /\ seed_of E k n d /\ bytes_ok d /\ length d = n) \/
  (exists ev, entropy_read (ce_os E k) (N.of_nat n) = Ok (None, ev) /\ forall d, ~ seed_of E k n d).
Proof.
  intros HE Hn. destruct (entropy_read_spec (ce_os E k) (N.of_nat n) Hn) as (r & ev & Er & HD & _ & _).
  rewrite Nat2N.id in HD. destruct r as [d|].
  - left. exists d, ev. split; [exact Er|]. pose proof (proj1 (HD d) eq_refl) as H. split; [exact H|].
    destruct H as (_ & _ & _ & H). split; [eapply delivers_bytes; [|exact H]; apply HE|eapply delivers_length; exact H].
  - right. exists ev. split; [exact Er|]. intros d H. apply HD in H. discriminate.
Qed.

Lemma instantiate_ok hw junk E k st : env_bytes E ->
  (exists d K V, instantiate hw junk E k st = Ok (true, mk_drbg (d_inst st) K V 1) /\ seed_of E k 48 d /\ kv_ok K V /\
     forall ops, drbg_run None (Op_instantiate d :: mix_ops E k ++ ops) = drbg_run (Some (K, V, 1)) ops) \/
  (instantiate hw junk E k st = Ok (false, st) /\ forall d, ~ seed_of E k 48 d).
Proof.
  intros HE. unfold instantiate.
  destruct (entropy_read_cases E k 48 HE) as [(d & ev & Er & Hs & Hb & HL)|(ev & Er & Hs)].
  { unfold SSIZE_MAX. lia. }
  - left. change (N.of_nat 48) with 48 in Er. rewrite Er, bind_Ok.
    destruct (update_ok hw junk (repeat 0 32) (repeat 1 32) d) as (K & V & EU & Hkv & HU); auto.
    { split; [reflexivity|]. split; [reflexivity|]. split; repeat constructor. }
    rewrite HU, bind_Ok.
    destruct (mix_ok hw junk E k K V HE Hkv) as (K' & V' & Hkv' & HM & ER).
    rewrite HM, bind_Ok. exists d, K', V'. split; [reflexivity|]. split; [exact Hs|]. split; [exact Hkv'|].
    intros ops. rewrite <- (ER 1 ops). cbn [drbg_run]. unfold HMAC_DRBG_Instantiate. rewrite EU. reflexivity.
  - right. change (N.of_nat 48) with 48 in Er. rewrite Er, bind_Ok. split; [reflexivity|exact Hs].
Qed.
Lemma reseed_ok hw junk E k i K0 V0 c : env_bytes E -> kv_ok K0 V0 ->
  (exists d K V, reseed hw junk E k (mk_drbg i K0 V0 c) = Ok (true, mk_drbg i K V 1) /\ seed_of E k 32 d /\ kv_ok K V /\
     forall ops, drbg_run (Some (K0, V0, c)) (Op_reseed d :: mix_ops E k ++ ops) = drbg_run (Some (K, V, 1)) ops) \/
  (reseed hw junk E k (mk_drbg i K0 V0 c) = Ok (false, mk_drbg i K0 V0 c) /\ forall d, ~ seed_of E k 32 d).
Proof.
  intros HE Hk. unfold reseed.
  destruct (entropy_read_cases E k 32 HE) as [(d & ev & Er & Hs & Hb & HL)|(ev & Er & Hs)].
  { unfold SSIZE_MAX. lia. }
  - left. change (N.of_nat 32) with 32 in Er. rewrite Er, bind_Ok.
    destruct (update_ok hw junk K0 V0 d Hk Hb) as (K & V & EU & Hkv & HU). rewrite HU, bind_Ok.
    destruct (mix_ok hw junk E k K V HE Hkv) as (K' & V' & Hkv' & HM & ER).
    rewrite HM, bind_Ok. exists d, K', V'. split; [reflexivity|]. split; [exact Hs|]. split; [exact Hkv'|].
    intros ops. rewrite <- (ER 1 ops). cbn [drbg_run]. unfold HMAC_DRBG_Reseed. rewrite EU. reflexivity.
  - right. change (N.of_nat 32) with 32 in Er. rewrite Er, bind_Ok. split; [reflexivity|exact Hs].
Qed.

(* ---------------- generate ---------------------------------------------- *)
Lemma drbg_temp_length K : forall n V t V', drbg_temp n K V = (t, V') -> length t = (32 * n)%nat.
Proof.
  induction n as [|n IH]; intros V t V' E; cbn [drbg_temp] in E.
  - injection E as <- <-. reflexivity.
  - destruct (drbg_temp n K (hmac K V)) as [t1 V1] eqn:E1. injection E as <- <-.
    rewrite app_length, hmac_length, (IH _ _ _ E1). lia.
Qed.
Lemma drbg_temp_ok K : forall n V t V', length V = 32%nat -> bytes_ok V -> drbg_temp n K V = (t, V') ->
  bytes_ok t /\ bytes_ok V' /\ length V' = 32%nat.
Proof.
  induction n as [|n IH]; intros V t V' HL HV E; cbn [drbg_temp] in E.
  - injection E as <- <-. repeat split; auto. constructor.
  - destruct (drbg_temp n K (hmac K V)) as [t1 V1] eqn:E1. injection E as <- <-.
    destruct (IH _ _ _ (hmac_length _ _) (hmac_ok _ _) E1) as (A & B & C).
    repeat split; auto. apply bytes_ok_app. split; [apply hmac_ok|exact A].
Qed.
Lemma gen_loop_ok hw junk i K c : bytes_ok K -> forall n fuel bufpos buflen V t V',
  bytes_ok V -> (bufpos <= buflen)%nat -> ((buflen - bufpos + 31) / 32 = n)%nat -> (n <= fuel)%nat ->
  drbg_temp n K V = (t, V') ->
  generate_loop hw junk fuel bufpos buflen (mk_drbg i K V c) = Ok (firstn (buflen - bufpos) t, mk_drbg i K V' c).
Proof.
  intros HK. induction n as [|n IH]; intros fuel bufpos buflen V t V' HV Hp Hn Hf ET; cbn [drbg_temp] in ET.
  - assert (buflen - bufpos = 0)%nat as E0.
    { destruct (Nat.eq_dec (buflen - bufpos) 0) as [|Hne]; [assumption|]. exfalso.
      assert (1 <= (buflen - bufpos + 31) / 32)%nat by (apply Nat.div_le_lower_bound; lia). lia. }
    injection ET as <- <-. destruct fuel; cbn [generate_loop]; destruct (Nat.ltb_spec bufpos buflen); try lia;
      rewrite firstn_nil; reflexivity.
  - destruct fuel as [|f]; [lia|]. cbn [generate_loop].
    assert (0 < buflen - bufpos)%nat as Hpos.
    { destruct (Nat.eq_dec (buflen - bufpos) 0) as [E0|]; [|lia]. rewrite E0 in Hn. discriminate. }
    destruct (Nat.ltb_spec bufpos buflen) as [_|]; [|lia]. cbn [d_Key d_V d_inst d_ctr].
    rewrite (HMAC_SHA256_Buf_correct hw junk K V HK HV), bind_Ok.
    destruct (drbg_temp n K (hmac K V)) as [t1 V1] eqn:E1. injection ET as <- <-.
    assert (length (hmac K V) = 32%nat) as HL by apply hmac_length.
    destruct (Nat.leb_spec 32 (buflen - bufpos)) as [H32|H32].
    + rewrite (rd_all _ 32 HL), bind_Ok.
      rewrite (IH f (bufpos + 32)%nat buflen (hmac K V) t1 V1 (hmac_ok _ _)); [|lia| |lia|exact E1].
      * rewrite bind_Ok. f_equal. f_equal. rewrite firstn_app, HL, (firstn_all2 (hmac K V)) by lia.
        f_equal. f_equal. lia.
      * replace (buflen - bufpos + 31)%nat with (1 * 32 + (buflen - (bufpos + 32) + 31))%nat in Hn by lia.
        rewrite Nat.div_add_l in Hn by lia. lia.
    + assert (n = 0)%nat as ->.
      { assert ((buflen - bufpos + 31) / 32 < 2)%nat by (apply Nat.div_lt_upper_bound; lia). lia. }
      cbn [drbg_temp] in E1. injection E1 as <- <-. rewrite app_nil_r.
      rewrite rd_ok by lia. rewrite bind_Ok.
      destruct f; cbn [generate_loop]; destruct (Nat.ltb_spec (bufpos + 32) buflen); try lia;
        rewrite bind_Ok, app_nil_r; reflexivity.
Qed.
Lemma generate_ok hw junk i K V c n : kv_ok K V -> (n <= GENERATE_MAXLEN)%nat -> c <= 256 ->
  exists out K' V', generate hw junk n (mk_drbg i K V c) = Ok (out, mk_drbg i K' V' (c + 1)) /\
    HMAC_DRBG_Generate (K, V, c) n = (out, (K', V', c + 1)) /\ kv_ok K' V' /\ length out = n /\ bytes_ok out.
Proof.
  intros (HK & HV & HKo & HVo) Hn Hc. unfold generate, HMAC_DRBG_Generate.
  assert (Nat.leb n GENERATE_MAXLEN = true) as -> by (apply Nat.leb_le; exact Hn).
  cbn [assert_ d_ctr]. rewrite bind_Ok.
  assert (c <=? RESEED_INTERVAL = true) as -> by (apply N.leb_le; exact Hc). cbn [assert_]. rewrite bind_Ok.
  destruct (drbg_temp ((n + 31) / 32) K V) as [t V1] eqn:ET.
  destruct (drbg_temp_ok K _ _ _ _ HV HVo ET) as (Ht & HV1 & HL1).
  pose proof (drbg_temp_length K _ _ _ _ ET) as HLt.
  assert (n <= 32 * ((n + 31) / 32))%nat as HN.
  { pose proof (Nat.div_mod (n + 31) 32 ltac:(lia)). pose proof (Nat.mod_upper_bound (n + 31) 32 ltac:(lia)). lia. }
  rewrite (gen_loop_ok hw junk i K c HKo ((n + 31) / 32) n 0 n V t V1 HVo); [|lia| | |exact ET].
  2: rewrite Nat.sub_0_r; reflexivity.
  2: { destruct n as [|n']; [apply le_n|]. apply Nat.div_le_upper_bound; lia. }
  rewrite bind_Ok, Nat.sub_0_r.
  destruct (update_ok hw junk K V1 []) as (K' & V' & EU & Hkv & HU); [split; auto|constructor|].
  rewrite HU, bind_Ok. cbn [d_inst d_Key d_V d_ctr]. exists (firstn n t), K', V'.
  rewrite EU. rewrite w32_small by lia. split; [reflexivity|]. split; [reflexivity|]. split; [exact Hkv|].
  split; [rewrite firstn_length; lia|apply Forall_firstn; exact Ht].
Qed.

(* ---------------- crypto_entropy_read ----------------------------------- *)
(** The extra input taken from the CPU after the k-th seed: the eight words of
    RDRAND, least significant byte first, whenever the CPU has RDRAND and all
    eight instructions succeed; nothing otherwise. *)
Definition rdrand_input (E : ent_env) (k : nat) (x : list drbg_op) : Prop :=
  (ce_rdrand E = true /\ exists ws, length ws = 8%nat /\ (forall i, (i < 8)%nat -> ce_step E k i = Some (nth i ws 0)) /\
     x = [Op_mix (flat_map (le_bytes 4) ws)]) \/
  ((ce_rdrand E = false \/ exists i, (i < 8)%nat /\ ce_step E k i = None) /\ x = []).
(** Where the seeds of a run come from: entropy_read number k, k+1, ... of the
    call, each complete, followed by the extra input from RDRAND. *)
Inductive seeds_from (E : ent_env) : nat -> list drbg_op -> Prop :=
| sf_nil k : seeds_from E k []
| sf_instantiate k s x t : seed_of E k 48 s -> rdrand_input E k x -> seeds_from E (S k) t ->
    seeds_from E k (Op_instantiate s :: x ++ t)
| sf_reseed k s x t : seed_of E k 32 s -> rdrand_input E k x -> seeds_from E (S k) t ->
    seeds_from E k (Op_reseed s :: x ++ t)
| sf_generate k n t : seeds_from E k t -> seeds_from E k (Op_generate n :: t).
(** The generator state as the standard sees it. *)
Definition drbg_abs (st : drbg) : option drbg_state :=
  if d_inst st then Some (d_Key st, d_V st, d_ctr st) else None.
(** Generates done since the last seed. *)
Definition gen_count (st : drbg) : nat := if d_inst st then (N.to_nat (d_ctr st) - 1)%nat else 0%nat.
Definition drbg_inv (st : drbg) : Prop :=
  d_inst st = true -> kv_ok (d_Key st) (d_V st) /\ 1 <= d_ctr st <= 257.

Lemma limits_mix E k c ops : drbg_limits c (mix_ops E k ++ ops) <-> drbg_limits c ops.
Proof. unfold mix_ops. destruct (ce_rdrand E); [destruct (rdrand_words (ce_step E k) 0 8)|]; reflexivity. Qed.
Lemma mix_input E k : rdrand_input E k (mix_ops E k).
Proof.
  unfold mix_ops, rdrand_input. destruct (ce_rdrand E) eqn:ER; [|right; auto].
  destruct (rdrand_words (ce_step E k) 0 8) as [ws|] eqn:EW.
  - apply rdrand_words_spec in EW. destruct EW as [HL HS]. left. split; [reflexivity|]. exists ws. auto.
  - apply rdrand_words_none in EW. destruct EW as (j & Hj & HS). right. split; [|reflexivity]. right. exists j. auto.
Qed.
Lemma nseeds_mix E k ops : drbg_seeds (mix_ops E k ++ ops) = drbg_seeds ops.
Proof. unfold mix_ops. destruct (ce_rdrand E); [destruct (rdrand_words (ce_step E k) 0 8)|]; reflexivity. Qed.

Local Opaque GENERATE_MAXLEN.
Lemma maxlen_val : GENERATE_MAXLEN = N.to_nat 65536.
Proof. reflexivity. Qed.
Lemma maxlen_limit n : (n <= GENERATE_MAXLEN)%nat -> N.of_nat n <= 65536.
Proof. intros H. rewrite maxlen_val in H. lia. Qed.
Lemma maxlen_pos : (0 < GENERATE_MAXLEN)%nat.
Proof. rewrite maxlen_val. lia. Qed.

Lemma gen_limits c n ops : c <= 256 -> 1 <= c -> (n <= GENERATE_MAXLEN)%nat ->
  drbg_limits (N.to_nat (c + 1) - 1) ops -> drbg_limits (N.to_nat c - 1) (Op_generate n :: ops).
Proof.
  intros H1 H2 Hn H. cbn [drbg_limits]. split; [apply maxlen_limit; exact Hn|]. split; [lia|].
  replace (S (N.to_nat c - 1)) with (N.to_nat (c + 1) - 1)%nat by lia. exact H.
Qed.

Lemma read_loop_ok hw junk E : env_bytes E -> forall fuel k n K V c, (n <= fuel)%nat -> kv_ok K V -> 1 <= c <= 257 ->
  exists r K' V' c' ops out, read_loop hw junk E fuel k n (mk_drbg true K V c) = Ok (r, mk_drbg true K' V' c') /\
    kv_ok K' V' /\ 1 <= c' <= 257 /\
    drbg_run (Some (K, V, c)) ops = Some (Some (K', V', c'), out) /\
    drbg_limits (N.to_nat c - 1) ops /\ seeds_from E k ops /\
    ((r = Some out /\ length out = n /\ bytes_ok out) \/
     (r = None /\ forall d, ~ seed_of E (k + length (drbg_seeds ops)) 32 d)).
Proof.
  intros HE. induction fuel as [|f IH]; intros k n K V c Hf Hkv Hc; cbn [read_loop].
  - assert (n = 0)%nat as -> by lia. change (Nat.ltb 0 0) with false. cbv iota.
    exists (Some []), K, V, c, [], []. split; [reflexivity|]. split; [exact Hkv|]. split; [exact Hc|].
    split; [reflexivity|]. split; [exact I|]. split; [constructor|]. left. repeat split; constructor.
  - destruct (Nat.ltb_spec 0 n) as [Hn|Hn].
    2: { assert (n = 0)%nat as -> by lia.
         exists (Some []), K, V, c, [], []. split; [reflexivity|]. split; [exact Hkv|]. split; [exact Hc|].
         split; [reflexivity|]. split; [exact I|]. split; [constructor|]. left. repeat split; constructor. }
    cbn [d_ctr].
    set (m := if Nat.ltb GENERATE_MAXLEN n then GENERATE_MAXLEN else n).
    assert (0 < m <= n)%nat as Hm by (unfold m; pose proof maxlen_pos; destruct (Nat.ltb_spec GENERATE_MAXLEN n); lia).
    assert (m <= GENERATE_MAXLEN)%nat as Hm2 by (unfold m; destruct (Nat.ltb_spec GENERATE_MAXLEN n); lia).
    assert (forall k' K0 V0 c0, kv_ok K0 V0 -> 1 <= c0 <= 256 ->
      exists r K' V' c' ops out, (' (out, st) <- generate hw junk m (mk_drbg true K0 V0 c0) ;;
          ' (r, st) <- read_loop hw junk E f k' (n - m) st ;; Ok (option_map (app out) r, st)) = Ok (r, mk_drbg true K' V' c') /\
        kv_ok K' V' /\ 1 <= c' <= 257 /\
        drbg_run (Some (K0, V0, c0)) ops = Some (Some (K', V', c'), out) /\
        drbg_limits (N.to_nat c0 - 1) ops /\ seeds_from E k' ops /\
        ((r = Some out /\ length out = n /\ bytes_ok out) \/
         (r = None /\ forall d, ~ seed_of E (k' + length (drbg_seeds ops)) 32 d))) as HG.
    { intros k' K0 V0 c0 Hkv0 Hc0.
      destruct (generate_ok hw junk true K0 V0 c0 m Hkv0 Hm2 ltac:(lia)) as (o & K1 & V1 & EG & ES & Hkv1 & HLo & Ho).
      rewrite EG, bind_Ok.
      destruct (IH k' (n - m)%nat K1 V1 (c0 + 1) ltac:(lia) Hkv1 ltac:(lia))
        as (r & K' & V' & c' & ops & out & EL & Hkv' & Hc' & ER & HLim & HSd & HR).
      rewrite EL, bind_Ok. exists (option_map (app o) r), K', V', c', (Op_generate m :: ops), (o ++ out).
      split; [reflexivity|]. split; [exact Hkv'|]. split; [exact Hc'|].
      split; [cbn [drbg_run]; rewrite ES; cbv beta iota; rewrite ER; reflexivity|].
      split; [apply gen_limits; auto; lia|]. split; [constructor; exact HSd|].
      destruct HR as [(-> & HLn & Hob)|(-> & HF)].
      - left. split; [reflexivity|]. split; [rewrite app_length; lia|]. apply bytes_ok_app. split; assumption.
      - right. split; [reflexivity|]. exact HF. }
    destruct (N.ltb_spec RESEED_INTERVAL c) as [HR|HR].
    + destruct (reseed_ok hw junk E k true K V c HE Hkv) as [(d & K1 & V1 & ER & Hs & Hkv1 & Hrun)|(ER & HF)].
      * rewrite ER, bind_Ok. cbn [negb].
        destruct (HG (S k) K1 V1 1 Hkv1 ltac:(lia)) as (r & K' & V' & c' & ops & out & EL & Hkv' & Hc' & ERn & HLim & HSd & HRr).
        exists r, K', V', c', (Op_reseed d :: mix_ops E k ++ ops), out. split; [exact EL|]. split; [exact Hkv'|]. split; [exact Hc'|].
        split; [rewrite Hrun; exact ERn|]. split; [cbn [drbg_limits]; apply limits_mix; exact HLim|].
        split; [apply sf_reseed; [exact Hs|apply mix_input|exact HSd]|].
        destruct HRr as [H|(-> & HF)]; [left; exact H|right]. split; [reflexivity|].
        cbn [drbg_seeds length]. rewrite nseeds_mix. rewrite Nat.add_succ_r. exact HF.
      * rewrite ER, bind_Ok. cbn [negb]. exists None, K, V, c, [], []. split; [reflexivity|]. split; [exact Hkv|].
        split; [exact Hc|]. split; [reflexivity|]. split; [exact I|]. split; [constructor|]. right. split; [reflexivity|].
        cbn [drbg_seeds length]. rewrite Nat.add_0_r. exact HF.
    + rewrite bind_Ok. cbn [negb]. apply HG; [exact Hkv|]. unfold RESEED_INTERVAL in HR. lia.
Qed.

Theorem crypto_entropy_read_ok hw junk E st n : env_bytes E -> drbg_inv st ->
  exists r st' ops out, crypto_entropy_read hw junk E st n = Ok (r, st') /\ drbg_inv st' /\
    drbg_run (drbg_abs st) ops = Some (drbg_abs st', out) /\
    drbg_limits (gen_count st) ops /\ seeds_from E 0 ops /\
    ((r = Some out /\ length out = n /\ bytes_ok out) \/
     (r = None /\ forall d, ~ seed_of E (length (drbg_seeds ops)) (if d_inst st then 32 else match ops with [] => 48 | _ => 32 end) d)).
Proof.
  intros HE Hinv. unfold crypto_entropy_read. destruct st as [i K V c]. unfold drbg_inv, gen_count, drbg_abs in *.
  cbn [d_inst d_Key d_V d_ctr] in *. destruct i; cbn [negb].
  - destruct (Hinv eq_refl) as [Hkv Hc]. rewrite bind_Ok. cbn [negb].
    destruct (read_loop_ok hw junk E HE n 0 n K V c (le_n _) Hkv Hc) as (r & K' & V' & c' & ops & out & EL & Hkv' & Hc' & ER & HLim & HSd & HR).
    rewrite EL. exists r, (mk_drbg true K' V' c'), ops, out. cbn [d_inst d_Key d_V d_ctr].
    split; [reflexivity|]. split; [intros _; split; assumption|]. split; [exact ER|]. split; [exact HLim|]. split; [exact HSd|].
    destruct HR as [H|(-> & HF)]; [left; exact H|right]. split; [reflexivity|]. exact HF.
  - destruct (instantiate_ok hw junk E 0 (mk_drbg false K V c) HE) as [(d & K1 & V1 & EI & Hs & Hkv1 & Hrun)|(EI & HF)].
    + rewrite EI, bind_Ok. cbn [negb d_Key d_V d_ctr].
      destruct (read_loop_ok hw junk E HE n 1 n K1 V1 1 (le_n _) Hkv1 ltac:(lia)) as (r & K' & V' & c' & ops & out & EL & Hkv' & Hc' & ER & HLim & HSd & HR).
      rewrite EL. exists r, (mk_drbg true K' V' c'), (Op_instantiate d :: mix_ops E 0 ++ ops), out. cbn [d_inst d_Key d_V d_ctr].
      split; [reflexivity|]. split; [intros _; split; assumption|]. split; [rewrite Hrun; exact ER|].
      split; [cbn [drbg_limits]; apply limits_mix; exact HLim|].
      split; [apply sf_instantiate; [exact Hs|apply mix_input|exact HSd]|].
      destruct HR as [H|(-> & HF)]; [left; exact H|right]. split; [reflexivity|].
      cbn [drbg_seeds length]. rewrite nseeds_mix. exact HF.
    + rewrite EI, bind_Ok. cbn [negb]. exists None, (mk_drbg false K V c), [], []. cbn [d_inst].
      split; [reflexivity|]. split; [discriminate|]. split; [reflexivity|]. split; [exact I|]. split; [constructor|].
      right. split; [reflexivity|]. exact HF.
Qed.

(** Histories. *)
Fixpoint count_after (c : nat) (ops : list drbg_op) : nat :=
  match ops with
  | [] => c
  | (Op_instantiate _ | Op_reseed _) :: t => count_after 0 t
  | Op_mix _ :: t => count_after c t
  | Op_generate _ :: t => count_after (S c) t
  end.
Lemma limits_app c a b : drbg_limits c a -> drbg_limits (count_after c a) b -> drbg_limits c (a ++ b).
Proof.
  revert c; induction a as [|o a IH]; intros c Ha Hb; [exact Hb|].
  destruct o; cbn [app drbg_limits count_after] in *; auto. destruct Ha as (H1 & H2 & H3). auto.
Qed.
Lemma run_app a : forall st b st1 o1, drbg_run st a = Some (st1, o1) ->
  drbg_run st (a ++ b) = match drbg_run st1 b with Some (s, o) => Some (s, o1 ++ o) | None => None end.
Proof.
  induction a as [|o a IH]; intros st b st1 o1 E.
  - cbn [drbg_run] in E. injection E as <- <-. cbn [app]. destruct (drbg_run st b) as [[? ?]|]; reflexivity.
  - destruct o, st as [s|]; cbn [app drbg_run] in *; try discriminate; eauto.
    destruct (HMAC_DRBG_Generate s n) as [out s'].
    destruct (drbg_run (Some s') a) as [[s1 r1]|] eqn:ER; [|discriminate]. injection E as <- <-.
    rewrite (IH _ b _ _ ER). destruct (drbg_run s1 b) as [[? ?]|]; [rewrite app_assoc|]; reflexivity.
Qed.
Lemma run_count ops : forall st s o, drbg_run st ops = Some (s, o) ->
  match st with Some (_, _, c) => 1 <= c | None => True end ->
  match s with
  | Some (_, _, c') => 1 <= c' /\ (N.to_nat c' - 1)%nat = count_after (match st with Some (_, _, c) => N.to_nat c - 1 | None => 0 end)%nat ops
  | None => ops = [] end.
Proof.
  induction ops as [|op ops IH]; intros st s o E Hc.
  - cbn [drbg_run] in E. injection E as <- <-. destruct st as [[[K V] c]|]; [split; [exact Hc|reflexivity]|reflexivity].
  - destruct op as [seed|seed|extra|n], st as [[[K V] c]|]; cbn [drbg_run] in E; try discriminate.
    + unfold HMAC_DRBG_Instantiate in E. destruct (HMAC_DRBG_Update _ _ _) as [K1 V1].
      specialize (IH _ _ _ E). cbv beta iota in IH. specialize (IH ltac:(lia)). destruct s as [[[? ?] ?]|]; [exact IH|].
      subst ops. cbn [drbg_run] in E. discriminate.
    + unfold HMAC_DRBG_Reseed in E. destruct (HMAC_DRBG_Update _ _ _) as [K1 V1].
      specialize (IH _ _ _ E). cbv beta iota in IH. specialize (IH ltac:(lia)). destruct s as [[[? ?] ?]|]; [exact IH|].
      subst ops. cbn [drbg_run] in E. discriminate.
    + unfold HMAC_DRBG_Mix in E. destruct (HMAC_DRBG_Update _ _ _) as [K1 V1].
      specialize (IH _ _ _ E). cbv beta iota in IH. specialize (IH ltac:(lia)). destruct s as [[[? ?] ?]|]; [exact IH|].
      subst ops. cbn [drbg_run] in E. discriminate.
    + unfold HMAC_DRBG_Generate in E. destruct (drbg_temp _ _ _) as [t V1]. destruct (HMAC_DRBG_Update _ _ _) as [K1 V2].
      destruct (drbg_run (Some (K1, V2, c + 1)) ops) as [[s1 r1]|] eqn:ER; [|discriminate]. injection E as <- <-.
      specialize (IH _ _ _ ER). cbv beta iota in IH. specialize (IH ltac:(lia)). destruct s1 as [[[? ?] ?]|].
      * cbn [count_after]. replace (S (N.to_nat c - 1)) with (N.to_nat (c + 1) - 1)%nat by lia. exact IH.
      * subst ops. cbn [drbg_run] in ER. discriminate.
Qed.
