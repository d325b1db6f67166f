(** Proofs about M_entropy_mem. *)
From Verif Require Import Base SpecBytes SpecSHA SpecDRBG P_sha256_tr M_sha256_tr M_simd M_sha256_hw M_sha256 P_sha256 M_memzero P_memzero
  M_sha256_mem P_sha256_mem Prop_sha256_mem P_scrypt_ref M_entropy P_entropy M_entropy_mem.

Definition zeros (l : list N) : Prop := Forall (fun b => b = 0) l.
Definition adds (P : piece -> Prop) (l l' : list piece) : Prop := exists x, l' = l ++ x /\ Forall P x.
Lemma adds_refl P l : adds P l l.
Proof. exists []. split; [symmetry; apply app_nil_r|constructor]. Qed.
Lemma adds_trans P a b c : adds P a b -> adds P b c -> adds P a c.
Proof. intros (x & -> & Hx) (y & -> & Hy). exists (x ++ y). split; [symmetry; apply app_assoc|apply Forall_app; auto]. Qed.
Lemma adds_one (P : piece -> Prop) l p : P p -> adds P l (l ++ [p]).
Proof. intros H. exists [p]. split; [reflexivity|constructor; [exact H|constructor]]. Qed.
Lemma adds_mono (P Q : piece -> Prop) l l' : (forall p, P p -> Q p) -> adds P l l' -> adds Q l l'.
Proof. intros H (x & -> & Hx). exists x. split; [reflexivity|]. eapply Forall_impl; eauto. Qed.
Definition clear (p : piece) : Prop := zeros (snd p).

Lemma zeros_repeat n : zeros (repeat 0 n).
Proof. apply Forall_forall. intros x H. exact (repeat_spec _ _ _ H). Qed.
Lemma zeros_app a b : zeros a -> zeros b -> zeros (a ++ b).
Proof. intros. apply Forall_app; auto. Qed.
Lemma blank_zeros n l : blank n l -> zeros l.
Proof. intros [_ H]. exact H. Qed.
Lemma zeros_sha c : blank_sha c -> zeros (sha_words c).
Proof. intros (A & B & C). unfold sha_words. rewrite B. repeat apply zeros_app; eauto using blank_zeros. repeat constructor. Qed.
Lemma zeros_hmac c : blank_hmac c -> zeros (hmac_words c).
Proof. intros [A B]. apply zeros_app; apply zeros_sha; assumption. Qed.
Lemma blank_any_sha c : blank_sha c -> any_sha c.
Proof. intros ([A _] & _ & [B _]). split; assumption. Qed.
Lemma blank_any c : blank_hmac c -> any_hmac c.
Proof. intros [A B]. split; apply blank_any_sha; assumption. Qed.

Section Machine.
  Context (hw : sha_hw) (leave : list N -> bytes -> list N -> list N) (HL : in_bounds leave) (junk : nat -> nat -> N).

  Lemma found_length l off n : length (found junk l off n) = n.
  Proof. unfold found. rewrite map_length, seq_length. reflexivity. Qed.
  Lemma any_found l off : any_hmac (hmac_found junk l off).
  Proof. repeat split; apply found_length. Qed.

  (** Init, two Updates, Final: one HMAC. *)
  Lemma call_hmac ctx K a b digest l : any_hmac ctx -> bytes_ok K -> bytes_ok a -> bytes_ok b -> (32 <= length digest)%nat ->
    exists ctx' l', blank_hmac ctx' /\ adds clear l l' /\
    forall B (k : bytes * hmac_ctx * list piece -> res B),
    (' (ctx, l) <- call_Init hw leave junk ctx K l ;;
     ' (ctx, l) <- call_Update hw leave junk ctx a l ;;
     ' (ctx, l) <- call_Update hw leave junk ctx b l ;;
     r <- call_Final hw leave junk digest ctx l ;; k r) = k (hmac K (a ++ b) ++ skipn 32 digest, ctx', l').
  Proof.
    intros [[_ Hi] [_ Ho]] HK Ha Hb Hd. unfold call_Init, call_Update, call_Final, mem_HMAC_Init, mem_HMAC_Update, mem_HMAC_Final.
    destruct (mem_HMAC_Init_correct hw leave HL ctx K (found junk l 0 72) (found junk l 72 64) (found junk l 136 32) Hi Ho HK
      (found_length _ _ _) (found_length _ _ _) (found_length _ _ _)) as (c1 & t1 & p1 & k1 & E1 & H1 & L1 & L2 & L3).
    set (l1 := l ++ [(P_hash, repeat 0 72 ++ repeat 0 64 ++ repeat 0 32)]).
    destruct (mem_HMAC_Update_correct hw leave HL c1 K [] a (found junk l1 0 72) H1 Ha (found_length _ _ _)) as (c2 & t2 & E2 & H2 & M2).
    set (l2 := l1 ++ [(P_hash, repeat 0 72)]).
    destruct (mem_HMAC_Update_correct hw leave HL c2 K ([] ++ a) b (found junk l2 0 72) H2 Hb (found_length _ _ _)) as (c3 & t3 & E3 & H3 & M3).
    set (l3 := l2 ++ [(P_hash, repeat 0 72)]).
    destruct (mem_HMAC_Final_internal_correct hw leave HL digest c3 K (([] ++ a) ++ b) (found junk l3 0 72) (found junk l3 72 32) H3 (found_length _ _ _) Hd)
      as (c4 & t4 & h4 & E4 & W4 & L4 & L5); [rewrite found_length; lia|]. rewrite found_length in L5.
    exists hmac_zero, (l3 ++ [(P_hash, repeat 0 72 ++ repeat 0 32)]). split; [apply blank_hmac_zero|]. split.
    { unfold l3, l2, l1. repeat (eapply adds_trans; [|apply adds_one; unfold clear; cbn [snd]; repeat apply zeros_app; apply zeros_repeat]). apply adds_refl. }
    intros B k. rewrite E1. cbn [bind]. rewrite (memzero_tmp32 t1 L1). cbn [bind]. rewrite (memzero_exact k1 32 L3). cbn [bind].
    rewrite (memzero_exact p1 64 L2). cbn [bind]. fold l1. rewrite E2. cbn [bind]. rewrite (memzero_tmp32 t2 M2). cbn [bind]. fold l2.
    rewrite E3. cbn [bind]. rewrite (memzero_tmp32 t3 M3). cbn [bind]. fold l3.
    rewrite E4. cbn [bind]. rewrite (memzero_hmac_ok c4 W4). cbn [bind]. rewrite (memzero_tmp32 t4 L4). cbn [bind].
    rewrite (memzero_exact h4 32) by lia. cbn [bind app]. reflexivity.
  Qed.
  Lemma call_buf K m digest l : bytes_ok K -> bytes_ok m -> (32 <= length digest)%nat ->
    exists l', call_Buf hw leave junk K m digest l = Ok (hmac K m ++ skipn 32 digest, l') /\ adds clear l l'.
  Proof.
    intros HK Hm Hd. unfold call_Buf.
    destruct (C68_hmac_buf hw leave K m digest (hmac_found junk l 0) (found junk l 146 72) (found junk l 218 96) HL (any_found _ _) HK Hm Hd
      (found_length _ _ _) (found_length _ _ _)) as (c & t & t8 & -> & HC & Ht & H8).
    cbn [bind]. eexists. split; [reflexivity|]. apply adds_one. unfold clear. cbn [snd].
    apply zeros_app; [apply zeros_hmac; exact HC|]. apply zeros_app; eapply blank_zeros; eassumption.
  Qed.

  Lemma round_ok c data K V x ctx l : c < 256 -> kv_ok K V -> bytes_ok data -> any_hmac ctx ->
    exists ctx' l', mem_round hw leave junk c data K (V ++ [x]) ctx l =
        Ok (hmac K ((V ++ [c]) ++ data), hmac (hmac K ((V ++ [c]) ++ data)) V ++ [c], ctx', l') /\ blank_hmac ctx' /\ adds clear l l'.
  Proof.
    intros Hc (LK & LV & BK & BV) Hd HX. unfold mem_round. rewrite wr_33, bind_Ok by assumption.
    rewrite (rd_all K) by assumption. rewrite bind_Ok.
    assert (length (V ++ [c]) = 33%nat) as L33 by (rewrite app_length; cbn [length]; lia).
    destruct (call_hmac ctx K (V ++ [c]) data K l HX BK) as (ctx' & l1 & HB & HA & HE); auto.
    { apply bytes_ok_app. split; [exact BV|apply bytes_ok_one; exact Hc]. } { lia. }
    rewrite (rd_all (V ++ [c])) by assumption.
    match goal with |- context [bind (call_Init _ _ _ _ _ _) ?f] =>
      replace f with (fun p : hmac_ctx * list piece => let (ctx, l) := p in
        ' (ctx, l) <- call_Update hw leave junk ctx (V ++ [c]) l ;;
        ' (ctx, l) <- call_Update hw leave junk ctx data l ;;
        r <- call_Final hw leave junk K ctx l ;;
        let '(K, ctx, l) := r in k <- rd K 0 32 ;; v <- rd (V ++ [c]) 0 32 ;; ' (Vx, l) <- call_Buf hw leave junk k v (V ++ [c]) l ;; Ok (K, Vx, ctx, l)) by reflexivity end.
    rewrite HE. cbv beta iota. rewrite skipn_all2, app_nil_r by lia.
    rewrite (rd_all (hmac K ((V ++ [c]) ++ data))) by apply hmac_length. rewrite bind_Ok, rd_first, bind_Ok by assumption.
    destruct (call_buf (hmac K ((V ++ [c]) ++ data)) V (V ++ [c]) l1) as (l2 & -> & HA2); [apply hmac_ok|exact BV|lia|].
    rewrite bind_Ok. cbv beta iota. rewrite skipn_app, skipn_all2, LV, Nat.sub_diag by lia. cbn [skipn app].
    exists ctx', l2. split; [reflexivity|]. split; [exact HB|]. eapply adds_trans; eassumption.
  Qed.

  Lemma mem_update_ok K0 V0 data : kv_ok K0 V0 -> bytes_ok data ->
    exists K V, HMAC_DRBG_Update data K0 V0 = (K, V) /\ kv_ok K V /\
      forall i c l, exists l', mem_update hw leave junk (mk_drbg i K0 V0 c) data l = Ok (mk_drbg i K V c, l') /\ adds clear l l'.
  Proof.
    intros Hkv Hd. pose proof Hkv as (HK & HV & HKo & HVo).
    set (K1 := hmac K0 ((V0 ++ [0]) ++ data)). set (V1 := hmac K1 V0).
    set (K2 := hmac K1 ((V1 ++ [1]) ++ data)). set (V2 := hmac K2 V1).
    assert (kv_ok K1 V1) as Hkv1 by (split; [apply hmac_length|]; split; [apply hmac_length|]; split; apply hmac_ok).
    assert (kv_ok K2 V2) as Hkv2 by (split; [apply hmac_length|]; split; [apply hmac_length|]; split; apply hmac_ok).
    exists (match data with [] => K1 | _ => K2 end), (match data with [] => V1 | _ => V2 end).
    split; [|split].
    - unfold HMAC_DRBG_Update. rewrite !app_assoc. fold K1. fold V1. fold K2. fold V2. destruct data; reflexivity.
    - destruct data; assumption.
    - intros i c l. unfold mem_update. cbn [d_Key d_V d_inst d_ctr].
      destruct (split33 (found junk l 178 33) (found_length _ _ _)) as (a & b & Es & Ha). rewrite Es.
      assert (wr (found junk l 146 32) 0 K0 = Ok K0) as ->.
      { rewrite wr_ok by (rewrite found_length; lia). f_equal. unfold upd. cbn [firstn app]. rewrite skipn_all2 by (rewrite found_length; lia). apply app_nil_r. }
      rewrite bind_Ok. rewrite wr_first, bind_Ok by assumption.
      destruct (round_ok 0 data K0 V0 b (hmac_found junk l 0) l ltac:(lia) Hkv Hd (any_found _ _)) as (x1 & l1 & -> & HB1 & HA1).
      rewrite bind_Ok. cbv beta iota. fold K1. fold V1.
      assert (forall K V x cc lx, kv_ok K V -> blank_hmac cc ->
        (Key <- rd K 0 32 ;; Vn <- rd (V ++ [x]) 0 32 ;; Kz <- insecure_memzero K 32 ;; Vz <- insecure_memzero (V ++ [x]) 33 ;;
         Ok (mk_drbg i Key Vn c, lx ++ [(P_update, hmac_words cc ++ Kz ++ Vz)])) =
        Ok (mk_drbg i K V c, lx ++ [(P_update, hmac_words cc ++ repeat 0 32 ++ repeat 0 33)])) as HF.
      { intros K V x cc lx (A1 & A2 & A3 & A4) HBl. rewrite (rd_all K) by assumption. rewrite bind_Ok, rd_first, bind_Ok by assumption.
        rewrite (memzero_exact K 32) by assumption. rewrite bind_Ok. rewrite (memzero_exact (V ++ [x]) 33) by (rewrite app_length; cbn [length]; lia). reflexivity. }
      assert (forall cc lx, blank_hmac cc -> adds clear lx (lx ++ [(P_update, hmac_words cc ++ repeat 0 32 ++ repeat 0 33)])) as HG.
      { intros cc lx HBl. apply adds_one. unfold clear. cbn [snd]. apply zeros_app; [apply zeros_hmac; exact HBl|]. apply zeros_app; apply zeros_repeat. }
      destruct data as [|y t].
      + cbn [length Nat.eqb negb]. rewrite bind_Ok. cbv beta iota. rewrite HF by assumption. eexists. split; [reflexivity|].
        eapply adds_trans; [exact HA1|]. apply HG. exact HB1.
      + change (Nat.eqb (length (y :: t)) 0) with false. cbn [negb].
        destruct (round_ok 1 (y :: t) K1 V1 0 x1 l1 ltac:(lia) Hkv1 Hd (blank_any _ HB1)) as (x2 & l2 & -> & HB2 & HA2).
        rewrite bind_Ok. cbv beta iota. fold K2. fold V2. rewrite HF by assumption. eexists. split; [reflexivity|].
        eapply adds_trans; [exact HA1|]. eapply adds_trans; [exact HA2|]. apply HG. exact HB2.
  Qed.
End Machine.

(* ---------------- entropy_read and RDRAND in memory ---------------------- *)
Definition is_some {A} (o : option A) : bool := match o with Some _ => true | None => false end.
Definition got_of (ev : list ent_event) : bytes := concat (map read_data ev).

Lemma upd_none {A} (m : list A) o : upd m o [] = m.
Proof. unfold upd. cbn [app length]. rewrite Nat.add_0_r. apply firstn_skipn. Qed.

Lemma mem_fill_ok os : forall fuel i n r ev, fill_loop os fuel i n = Ok (r, ev) -> n < 2 ^ 64 ->
  (length (got_of ev) <= N.to_nat n)%nat /\
  forall buf pos, (pos + N.to_nat n <= length buf)%nat ->
    mem_fill os fuel i buf pos n = Ok (is_some r, upd buf pos (got_of ev)).
Proof.
  induction fuel as [|f IH]; intros i n r ev H Hn; cbn [fill_loop mem_fill] in *.
  - destruct (0 <? n); [discriminate|]. assert (r = Some []) as -> by congruence. assert (ev = []) as -> by congruence.
    split; [cbn; lia|]. intros buf pos _. unfold got_of. cbn [map concat]. rewrite upd_none. reflexivity.
  - destruct (N.ltb_spec 0 n) as [Hp|Hz].
    2: { assert (r = Some []) as -> by congruence. assert (ev = []) as -> by congruence.
         split; [cbn; lia|]. intros buf pos _. unfold got_of. cbn [map concat]. rewrite upd_none. reflexivity. }
    destruct (oe_read os i) as [avail|].
    2: { assert (r = None) as -> by congruence. assert (ev = [Ev_read n None]) as -> by congruence.
         split; [cbn; lia|]. intros buf pos _. unfold got_of. cbn [map concat read_data app]. rewrite upd_none. reflexivity. }
    set (got := firstn (N.to_nat n) avail) in *.
    assert (length got <= N.to_nat n)%nat as HL by (unfold got; rewrite firstn_length; lia). clearbody got.
    destruct (N.eqb_spec (N.of_nat (length got)) 0) as [E0|E0].
    { assert (r = None) as -> by congruence. assert (ev = [Ev_read n (Some [])]) as -> by congruence.
      split; [cbn; lia|]. intros buf pos _. unfold got_of. cbn [map concat read_data app]. rewrite upd_none. reflexivity. }
    assert (w64 (2 ^ 64 + n - N.of_nat (length got)) = n - N.of_nat (length got)) as Ew.
    { rewrite w64_mod. replace (2 ^ 64 + n - N.of_nat (length got)) with (n - N.of_nat (length got) + 1 * 2 ^ 64) by lia.
      rewrite N.mod_add by discriminate. apply N.mod_small. lia. }
    rewrite Ew in *. destruct (fill_loop os f (S i) (n - N.of_nat (length got))) as [[r' ev']| |] eqn:EF; try discriminate.
    cbn [bind] in H. assert (r = option_map (app got) r') as -> by congruence. assert (ev = Ev_read n (Some got) :: ev') as -> by congruence.
    destruct (IH _ _ _ _ EF ltac:(lia)) as [IL IH']. unfold got_of in *. cbn [map concat read_data]. split; [rewrite app_length; lia|].
    intros buf pos HP. rewrite wr_ok by lia. rewrite bind_Ok. rewrite IH' by (rewrite upd_length by lia; lia).
    rewrite upd_adjacent by lia. destruct r'; reflexivity.
Qed.

Lemma mem_entropy_read_ok os n buf : n <= SSIZE_MAX -> length buf = N.to_nat n ->
  exists r ev, entropy_read os n = Ok (r, ev) /\
    mem_entropy_read os buf n = Ok (is_some r, got_of ev ++ skipn (length (got_of ev)) buf) /\
    (forall d, r = Some d -> got_of ev = d /\ length d = N.to_nat n).
Proof.
  intros Hn HL. destruct (entropy_read_spec os n Hn) as (r & ev & E & HD & HC & _). exists r, ev. split; [exact E|].
  split; [|intros d Ed; split; [symmetry; apply HC; exact Ed|]; apply HD in Ed; destruct Ed as (_ & _ & _ & Ed); exact (delivers_length _ _ _ _ Ed)].
  clear HD HC. unfold entropy_read, mem_entropy_read in *.
  assert (n <=? SSIZE_MAX = true) as EA by (apply N.leb_le; exact Hn). rewrite EA in *. cbn [assert_ bind] in *.
  destruct (oe_malloc os); cbn [negb] in *; [|assert (r = None) as -> by congruence; assert (ev = [Ev_malloc false]) as -> by congruence; reflexivity].
  destruct (oe_open os); cbn [negb] in *; [|assert (r = None) as -> by congruence; assert (ev = [Ev_malloc true; Ev_open false; Ev_free]) as -> by congruence; reflexivity].
  unfold entropy_read_fill in E. rewrite EA in E. cbn [assert_ bind] in *.
  destruct (fill_loop os (N.to_nat n) 0 n) as [[r' ev']| |] eqn:EF; try discriminate. cbn [bind] in E.
  assert (n < 2 ^ 64) as Hn64 by (unfold SSIZE_MAX in Hn; lia).
  destruct (mem_fill_ok os _ _ _ _ _ EF Hn64) as [LG HM]. rewrite HM by lia. cbn [bind]. unfold entropy_read_done in E.
  assert (forall x, got_of (Ev_malloc true :: Ev_open true :: ev' ++ repeat Ev_close_eintr (oe_eintr os) ++ [Ev_close x; Ev_free]) = got_of ev') as HG.
  { intros x. unfold got_of. cbn [map read_data concat app]. rewrite !map_app, !concat_app.
    assert (concat (map read_data (repeat Ev_close_eintr (oe_eintr os))) = []) as -> by (clear; induction (oe_eintr os) as [|m IH]; [reflexivity|exact IH]).
    cbn [map read_data concat app]. apply app_nil_r. }
  assert (got_of ev = got_of ev' /\ r = match r' with Some d => if oe_close os then Some d else None | None => None end) as [-> ->].
  { destruct r' as [d|]; [destruct (oe_close os)|]; split; try congruence;
      match type of E with Ok (_, ?e) = _ => assert (ev = e) as -> by congruence end; apply HG. }
  unfold upd. cbn [firstn app Nat.add]. f_equal. f_equal. destruct r' as [d|]; [destruct (oe_close os)|]; reflexivity.
Qed.

Lemma wr_at {A} (a : list A) x b v : wr (a ++ x :: b) (length a) [v] = Ok ((a ++ [v]) ++ b).
Proof.
  unfold wr, upd. cbn [length]. rewrite app_length. cbn [length].
  destruct (Nat.leb_spec (length a + 1) (length a + S (length b))); [|lia].
  rewrite firstn_app, Nat.sub_diag, firstn_all, firstn_O, app_nil_r, <- app_assoc.
  rewrite skipn_app, skipn_all2 by lia. replace (length a + 1 - length a)%nat with 1%nat by lia. reflexivity.
Qed.
Lemma mem_seed_ok step : forall n a b, length b = n ->
  (exists ws, rdrand_words step (length a) n = Some ws /\ length ws = n /\ mem_seed_rdrand step (length a) n (a ++ b) = Ok (true, a ++ ws)) \/
  (rdrand_words step (length a) n = None /\ exists j ws, (j < n)%nat /\ length ws = j /\ (forall x, (x < j)%nat -> step (length a + x)%nat = Some (nth x ws 0)) /\
     step (length a + j)%nat = None /\ mem_seed_rdrand step (length a) n (a ++ b) = Ok (false, a ++ ws ++ 0 :: skipn (S j) b)).
Proof.
  induction n as [|n IH]; intros a b HL; cbn [mem_seed_rdrand rdrand_words].
  - destruct b; [|discriminate]. left. exists []. auto.
  - destruct b as [|x b]; [discriminate|]. cbn in HL. destruct (step (length a)) as [v|] eqn:ES.
    + rewrite wr_at, bind_Ok. specialize (IH (a ++ [v]) b ltac:(lia)). rewrite app_length in IH. cbn [length] in IH. rewrite Nat.add_1_r in IH.
      destruct IH as [(ws & E1 & E2 & E3)|(E1 & j & ws & E2 & E3 & E4 & E5 & E6)].
      * left. exists (v :: ws). rewrite E1, E3, <- app_assoc. cbn [length]. auto.
      * right. rewrite E1. split; [reflexivity|]. exists (S j), (v :: ws). rewrite E6, <- !app_assoc. cbn [app skipn length]. split; [lia|]. split; [lia|].
        split; [|split; [rewrite <- E5; f_equal; lia|reflexivity]].
        intros [|y] Hy; cbn [nth]; [rewrite Nat.add_0_r; exact ES|]. rewrite <- E4 by lia. f_equal. lia.
    + right. split; [reflexivity|]. rewrite wr_at, bind_Ok. exists 0%nat, []. rewrite Nat.add_0_r, <- app_assoc. cbn [app skipn length]. split; [lia|]. split; [reflexivity|].
      split; [intros y Hy; lia|]. auto.
Qed.

(* ---------------- crypto_entropy_read ------------------------------------ *)
(** What may be left in a piece of memory. *)
Inductive leftover (junk : nat -> nat -> N) (E : ent_env) (failed : bool) : piece -> Prop :=
| L_clear p m : zeros m -> leftover junk E failed (p, m)
| L_seed k n ev j : failed = true -> n = 48 \/ n = 32 -> entropy_read (ce_os E k) n = Ok (None, ev) ->
    leftover junk E failed (P_seed, got_of ev ++ skipn (length (got_of ev)) (map (junk j) (seq 0 (N.to_nat n))))
| L_rdrand k i ws j : ce_rdrand E = true -> (i < 8)%nat -> length ws = i -> (forall x, (x < i)%nat -> ce_step E k x = Some (nth x ws 0)) ->
    ce_step E k i = None -> leftover junk E failed (P_rdrand, ws ++ 0 :: skipn (S i) (map (junk j) (seq 0 8))).
Lemma leftover_clear junk E b p : clear p -> leftover junk E b p.
Proof. destruct p as [w m]. intros H. apply L_clear. exact H. Qed.
Lemma leftover_fail junk E b p : leftover junk E false p -> leftover junk E b p.
Proof. intros H. inversion H; subst; [apply L_clear; assumption|discriminate|eapply L_rdrand; eauto]. Qed.
Lemma memzero_words8 buf : length buf = 8%nat -> memzero_words buf 32 = Ok (repeat 0 8).
Proof. intros H. unfold memzero_words. change (32 / 4)%nat with 8%nat. apply memzero_exact. exact H. Qed.

Section Reader.
  Context (hw : sha_hw) (leave : list N -> bytes -> list N -> list N) (HL : in_bounds leave) (junk : nat -> nat -> N) (j0 : nat -> N).
  Context (E : ent_env) (HE : env_bytes E).
  Notation left b := (adds (leftover junk E b)).

  Lemma mem_mix_ok k K V l i c : kv_ok K V ->
    exists K' V' l', kv_ok K' V' /\ update_from_rdrand hw j0 E k (mk_drbg i K V c) = Ok (mk_drbg i K' V' c) /\
      mem_update_from_rdrand hw leave junk E k (mk_drbg i K V c) l = Ok (mk_drbg i K' V' c, l') /\ left false l l'.
  Proof.
    intros Hk. unfold update_from_rdrand, mem_update_from_rdrand. destruct (ce_rdrand E) eqn:EX.
    2:{ exists K, V, l. split; [exact Hk|]. split; [reflexivity|]. split; [reflexivity|apply adds_refl]. }
    pose proof (generate_seed_ok (ce_step E k) 8 [] (map j0 (seq 0 8)) ltac:(rewrite map_length, seq_length; reflexivity)) as HG.
    cbn [length app] in HG. rewrite HG, bind_Ok. clear HG.
    destruct (mem_seed_ok (ce_step E k) 8 [] (found junk l 0 8) (found_length _ _ _ _)) as [(ws & E1 & E2 & E3)|(E1 & j & ws & E2 & E3 & E4 & E5 & E6)];
      cbn [length app Nat.add] in *; rewrite E1; cbn [option_map].
    - rewrite E3, bind_Ok. cbn [negb].
      destruct (update_ok hw j0 K V (flat_map (le_bytes 4) ws) Hk (flat_le_ok ws)) as (K' & V' & EU & Hkv & HU).
      destruct (mem_update_ok hw leave HL junk K V (flat_map (le_bytes 4) ws) Hk (flat_le_ok ws)) as (K2 & V2 & EU2 & _ & HU2).
      rewrite EU in EU2. injection EU2 as <- <-. destruct (HU2 i c l) as (l1 & -> & HA). rewrite bind_Ok. cbv beta iota.
      rewrite memzero_words8, bind_Ok by exact E2. exists K', V', (l1 ++ [(P_rdrand, repeat 0 8)]). split; [exact Hkv|]. split; [apply HU|]. split; [reflexivity|].
      eapply adds_trans; [eapply adds_mono; [|exact HA]; intros; apply leftover_clear; assumption|]. apply adds_one, L_clear, zeros_repeat.
    - rewrite E6, bind_Ok. cbn [negb]. eexists K, V, _. split; [exact Hk|]. split; [reflexivity|]. split; [reflexivity|].
      apply adds_one. unfold found. eapply L_rdrand; eauto.
  Qed.

  Lemma seed_read k n : n = 48%nat \/ n = 32%nat -> forall l,
    (exists d ev, entropy_read (ce_os E k) (N.of_nat n) = Ok (Some d, ev) /\ bytes_ok d /\ length d = n /\
       mem_entropy_read (ce_os E k) (found junk l 0 n) (N.of_nat n) = Ok (true, d)) \/
    (exists ev m, entropy_read (ce_os E k) (N.of_nat n) = Ok (None, ev) /\ mem_entropy_read (ce_os E k) (found junk l 0 n) (N.of_nat n) = Ok (false, m) /\
       leftover junk E true (P_seed, m)).
  Proof.
    intros Hn l. assert (N.of_nat n <= SSIZE_MAX) as HZ by (unfold SSIZE_MAX; destruct Hn as [-> | ->]; lia).
    destruct (mem_entropy_read_ok (ce_os E k) (N.of_nat n) (found junk l 0 n) HZ) as (r & ev & ER & EM & HD). { rewrite found_length. lia. }
    destruct r as [d|]; cbn [is_some] in EM.
    - left. destruct (HD d eq_refl) as [HG HLd]. rewrite Nat2N.id in HLd. exists d, ev. split; [exact ER|].
      destruct (entropy_read_cases E k n HE HZ) as [(d' & ev' & ER' & _ & Hb & _)|(ev' & ER' & _)]; [|congruence].
      assert (d' = d) as -> by congruence. split; [exact Hb|]. split; [exact HLd|].
      rewrite EM, HG, skipn_all2, app_nil_r by (rewrite found_length; lia). reflexivity.
    - right. exists ev. eexists. split; [exact ER|]. split; [exact EM|].
      replace (found junk l 0 n) with (map (junk (length l)) (seq 0 (N.to_nat (N.of_nat n)))) by (rewrite Nat2N.id; reflexivity).
      apply (L_seed junk E true k (N.of_nat n) ev (length l)); [reflexivity|destruct Hn as [-> | ->]; auto|exact ER].
  Qed.

  Lemma mem_instantiate_ok k st l :
    (exists K V l', kv_ok K V /\ instantiate hw j0 E k st = Ok (true, mk_drbg (d_inst st) K V 1) /\
       mem_instantiate hw leave junk E k st l = Ok (true, mk_drbg (d_inst st) K V 1, l') /\ left false l l') \/
    (exists l', instantiate hw j0 E k st = Ok (false, st) /\ mem_instantiate hw leave junk E k st l = Ok (false, st, l') /\ left true l l').
  Proof.
    unfold instantiate, mem_instantiate.
    destruct (seed_read k 48 (or_introl eq_refl) l) as [(d & ev & E1 & E2 & E3 & E4)|(ev & m & E1 & E2 & E3)]; change (N.of_nat 48) with 48 in *.
    - left. rewrite E1, E4, !bind_Ok. cbn [negb]. rewrite (rd_all d) by exact E3. rewrite bind_Ok.
      assert (kv_ok (repeat 0 32) (repeat 1 32)) as Hk0 by (split; [reflexivity|]; split; [reflexivity|]; split; repeat constructor).
      destruct (update_ok hw j0 _ _ d Hk0 E2) as (K & V & EU & Hkv & HU).
      destruct (mem_update_ok hw leave HL junk _ _ d Hk0 E2) as (K2 & V2 & EU2 & _ & HU2).
      rewrite EU in EU2. injection EU2 as <- <-. destruct (HU2 (d_inst st) 1 l) as (l1 & -> & HA). rewrite HU, !bind_Ok.
      destruct (mem_mix_ok k K V l1 (d_inst st) 1 Hkv) as (K' & V' & l2 & Hkv' & -> & -> & HA2). rewrite !bind_Ok.
      rewrite (memzero_exact d 48) by exact E3. rewrite bind_Ok. exists K', V', (l2 ++ [(P_seed, repeat 0 48)]). split; [exact Hkv'|]. split; [reflexivity|]. split; [reflexivity|].
      eapply adds_trans; [eapply adds_mono; [|exact HA]; intros; apply leftover_clear; assumption|]. eapply adds_trans; [exact HA2|]. apply adds_one, L_clear, zeros_repeat.
    - right. rewrite E1, E2, !bind_Ok. cbn [negb]. eexists. split; [reflexivity|]. split; [reflexivity|]. apply adds_one. exact E3.
  Qed.
  Lemma mem_reseed_ok k i K0 V0 c l : kv_ok K0 V0 ->
    (exists K V l', kv_ok K V /\ reseed hw j0 E k (mk_drbg i K0 V0 c) = Ok (true, mk_drbg i K V 1) /\
       mem_reseed hw leave junk E k (mk_drbg i K0 V0 c) l = Ok (true, mk_drbg i K V 1, l') /\ left false l l') \/
    (exists l', reseed hw j0 E k (mk_drbg i K0 V0 c) = Ok (false, mk_drbg i K0 V0 c) /\
       mem_reseed hw leave junk E k (mk_drbg i K0 V0 c) l = Ok (false, mk_drbg i K0 V0 c, l') /\ left true l l').
  Proof.
    intros Hk0. unfold reseed, mem_reseed.
    destruct (seed_read k 32 (or_intror eq_refl) l) as [(d & ev & E1 & E2 & E3 & E4)|(ev & m & E1 & E2 & E3)]; change (N.of_nat 32) with 32 in *.
    - left. rewrite E1, E4, !bind_Ok. cbn [negb]. rewrite (rd_all d) by exact E3. rewrite bind_Ok.
      destruct (update_ok hw j0 _ _ d Hk0 E2) as (K & V & EU & Hkv & HU).
      destruct (mem_update_ok hw leave HL junk _ _ d Hk0 E2) as (K2 & V2 & EU2 & _ & HU2).
      rewrite EU in EU2. injection EU2 as <- <-. destruct (HU2 i c l) as (l1 & -> & HA). rewrite HU, !bind_Ok.
      destruct (mem_mix_ok k K V l1 i c Hkv) as (K' & V' & l2 & Hkv' & -> & -> & HA2). rewrite !bind_Ok. cbn [d_inst d_Key d_V].
      rewrite (memzero_exact d 32) by exact E3. rewrite bind_Ok. exists K', V', (l2 ++ [(P_seed, repeat 0 32)]). split; [exact Hkv'|]. split; [reflexivity|]. split; [reflexivity|].
      eapply adds_trans; [eapply adds_mono; [|exact HA]; intros; apply leftover_clear; assumption|]. eapply adds_trans; [exact HA2|]. apply adds_one, L_clear, zeros_repeat.
    - right. rewrite E1, E2, !bind_Ok. cbn [negb]. eexists. split; [reflexivity|]. split; [reflexivity|]. apply adds_one. exact E3.
  Qed.

  Lemma mem_gen_loop_ok i K c : bytes_ok K -> forall fuel bufpos buflen V l,
    length V = 32%nat -> bytes_ok V -> (buflen - bufpos <= fuel)%nat ->
    exists out V' l', length V' = 32%nat /\ bytes_ok V' /\
      generate_loop hw j0 fuel bufpos buflen (mk_drbg i K V c) = Ok (out, mk_drbg i K V' c) /\
      mem_generate_loop hw leave junk fuel bufpos buflen (mk_drbg i K V c) l = Ok (out, mk_drbg i K V' c, l') /\ adds clear l l'.
  Proof.
    intros HK. induction fuel as [|f IH]; intros bufpos buflen V l HV BV Hf; cbn [generate_loop mem_generate_loop];
      (destruct (Nat.ltb_spec bufpos buflen); [|exists [], V, l; repeat split; auto using adds_refl]); [lia|]. cbn [d_Key d_V d_inst d_ctr].
    rewrite (HMAC_SHA256_Buf_correct hw j0 K V HK BV), bind_Ok.
    destruct (call_buf hw leave HL junk K V V l HK BV ltac:(lia)) as (l1 & -> & HA). rewrite bind_Ok. cbv beta iota.
    rewrite (skipn_all2 V), app_nil_r by lia.
    assert (exists o, (if Nat.leb 32 (buflen - bufpos) then rd (hmac K V) 0 32 else rd (hmac K V) 0 (buflen - bufpos)) = Ok o) as (o & Eo).
    { pose proof (hmac_length K V) as HLH. destruct (Nat.leb_spec 32 (buflen - bufpos)); (eexists; apply rd_ok; lia). }
    rewrite !Eo, !bind_Ok.
    destruct (IH (bufpos + 32)%nat buflen (hmac K V) l1 (hmac_length _ _) (hmac_ok _ _) ltac:(lia)) as (outs & V' & l2 & A1 & A2 & -> & -> & HA2).
    rewrite !bind_Ok. exists (o ++ outs), V', l2. split; [exact A1|]. split; [exact A2|]. split; [reflexivity|]. split; [reflexivity|]. eapply adds_trans; eassumption.
  Qed.
  Lemma mem_generate_ok i K V c n l : kv_ok K V -> (n <= GENERATE_MAXLEN)%nat -> c <= 256 ->
    exists out K' V' l', kv_ok K' V' /\ generate hw j0 n (mk_drbg i K V c) = Ok (out, mk_drbg i K' V' (c + 1)) /\
      mem_generate hw leave junk n (mk_drbg i K V c) l = Ok (out, mk_drbg i K' V' (c + 1), l') /\ adds clear l l'.
  Proof.
    intros Hkv Hn Hc. pose proof Hkv as (HK & HV & BK & BV).
    destruct (generate_ok hw j0 i K V c n Hkv Hn Hc) as (out & K' & V' & EG & _ & Hkv' & _). exists out, K', V'.
    unfold generate, mem_generate in *. cbn [d_ctr] in *.
    assert (Nat.leb n GENERATE_MAXLEN = true) as E1 by (apply Nat.leb_le; exact Hn).
    assert (c <=? RESEED_INTERVAL = true) as E2 by (apply N.leb_le; exact Hc). rewrite E1, E2 in *. cbn [assert_ bind] in *.
    destruct (mem_gen_loop_ok i K c BK n 0 n V l HV BV ltac:(lia)) as (o & V1 & l1 & A1 & A2 & A3 & A4 & HA). rewrite A3 in EG. rewrite A4, !bind_Ok in *.
    assert (kv_ok K V1) as Hkv1 by (split; [exact HK|]; split; [exact A1|]; split; assumption).
    destruct (update_ok hw j0 K V1 [] Hkv1 ltac:(constructor)) as (K2 & V2 & EU & _ & HU).
    destruct (mem_update_ok hw leave HL junk K V1 [] Hkv1 ltac:(constructor)) as (K3 & V3 & EU2 & _ & HU2).
    rewrite EU in EU2. injection EU2 as <- <-. destruct (HU2 i c l1) as (l2 & -> & HA2). rewrite HU in EG. rewrite !bind_Ok in *.
    cbn [d_inst d_Key d_V d_ctr] in *. exists l2. split; [exact Hkv'|]. rewrite A3, bind_Ok, HU, bind_Ok. cbn [d_inst d_Key d_V d_ctr].
    split; [exact EG|]. split; [|eapply adds_trans; eassumption].
    apply (f_equal (fun x => match x with Ok (a, b) => Ok (a, b, l2) | _ => UB end)) in EG. exact EG.
  Qed.

  Local Opaque GENERATE_MAXLEN.
  Lemma mem_read_loop_ok : forall fuel k n K V c l, (n <= fuel)%nat -> kv_ok K V -> 1 <= c <= 257 ->
    exists r K' V' c' l', kv_ok K' V' /\ 1 <= c' <= 257 /\
      read_loop hw j0 E fuel k n (mk_drbg true K V c) = Ok (r, mk_drbg true K' V' c') /\
      mem_read_loop hw leave junk E fuel k n (mk_drbg true K V c) l = Ok (r, mk_drbg true K' V' c', l') /\ left (negb (is_some r)) l l'.
  Proof.
    induction fuel as [|f IH]; intros k n K V c l Hf Hkv Hc; cbn [read_loop mem_read_loop];
      (destruct (Nat.ltb_spec 0 n) as [Hn|Hn]; [|exists (Some []), K, V, c, l; repeat split; try apply Hkv; try lia; apply adds_refl]); [lia|]. cbn [d_ctr].
    set (m := if Nat.ltb GENERATE_MAXLEN n then GENERATE_MAXLEN else n).
    assert (0 < m <= n)%nat as Hm by (unfold m; pose proof maxlen_pos; destruct (Nat.ltb_spec GENERATE_MAXLEN n); lia).
    assert (m <= GENERATE_MAXLEN)%nat as Hm2 by (unfold m; destruct (Nat.ltb_spec GENERATE_MAXLEN n); lia). clearbody m.
    assert (forall k' K0 V0 c0 l0, kv_ok K0 V0 -> 1 <= c0 <= 256 -> left false l l0 ->
      exists r K' V' c' l', kv_ok K' V' /\ 1 <= c' <= 257 /\
        (' (out, st) <- generate hw j0 m (mk_drbg true K0 V0 c0) ;;
          ' (r, st) <- read_loop hw j0 E f k' (n - m) st ;; Ok (option_map (app out) r, st)) = Ok (r, mk_drbg true K' V' c') /\
        (' (out, st, l) <- mem_generate hw leave junk m (mk_drbg true K0 V0 c0) l0 ;;
          ' (r, st, l) <- mem_read_loop hw leave junk E f k' (n - m) st l ;; Ok (option_map (app out) r, st, l)) = Ok (r, mk_drbg true K' V' c', l') /\
        left (negb (is_some r)) l l') as HG.
    { intros k' K0 V0 c0 l0 Hkv0 Hc0 HA0.
      destruct (mem_generate_ok true K0 V0 c0 m l0 Hkv0 Hm2 ltac:(lia)) as (o & K1 & V1 & l1 & Hkv1 & -> & -> & HA1). rewrite !bind_Ok.
      destruct (IH k' (n - m)%nat K1 V1 (c0 + 1) l1 ltac:(lia) Hkv1 ltac:(lia)) as (r & K' & V' & c' & l2 & Hkv' & Hc' & -> & -> & HA2).
      rewrite !bind_Ok. exists (option_map (app o) r), K', V', c', l2. split; [exact Hkv'|]. split; [exact Hc'|]. split; [reflexivity|]. split; [reflexivity|].
      replace (is_some (option_map (app o) r)) with (is_some r) by (destruct r; reflexivity).
      eapply adds_trans; [eapply adds_mono; [|exact HA0]; intros; apply leftover_fail; assumption|].
      eapply adds_trans; [eapply adds_mono; [|exact HA1]; intros; apply leftover_clear; assumption|exact HA2]. }
    destruct (N.ltb_spec RESEED_INTERVAL c) as [HR|HR].
    - destruct (mem_reseed_ok k true K V c l Hkv) as [(K1 & V1 & l1 & Hkv1 & -> & -> & HA)|(l1 & -> & -> & HA)]; rewrite !bind_Ok; cbn [negb].
      + apply HG; [exact Hkv1|lia|exact HA].
      + exists None, K, V, c, l1. split; [exact Hkv|]. split; [exact Hc|]. split; [reflexivity|]. split; [reflexivity|]. exact HA.
    - rewrite !bind_Ok. cbn [negb]. apply HG; [exact Hkv|unfold RESEED_INTERVAL in HR; lia|apply adds_refl].
  Qed.

  Lemma mem_crypto_entropy_read_ok st n : drbg_inv st ->
    exists r st' l, crypto_entropy_read hw j0 E st n = Ok (r, st') /\ drbg_inv st' /\
      mem_crypto_entropy_read hw leave junk E st n = Ok (r, st', l) /\ Forall (leftover junk E (negb (is_some r))) l.
  Proof.
    intros Hinv. unfold crypto_entropy_read, mem_crypto_entropy_read. destruct st as [i K V c]. unfold drbg_inv in *.
    cbn [d_inst d_Key d_V d_ctr] in *.
    assert (forall k K V c l0, kv_ok K V -> 1 <= c <= 257 -> Forall (leftover junk E false) l0 ->
      exists r st' l, read_loop hw j0 E n k n (mk_drbg true K V c) = Ok (r, st') /\
      (d_inst st' = true -> kv_ok (d_Key st') (d_V st') /\ 1 <= d_ctr st' <= 257) /\
      mem_read_loop hw leave junk E n k n (mk_drbg true K V c) l0 = Ok (r, st', l) /\ Forall (leftover junk E (negb (is_some r))) l) as HG.
    { intros k' K1 V1 c1 l0 Hk Hc H0.
      destruct (mem_read_loop_ok n k' n K1 V1 c1 l0 (le_n _) Hk Hc) as (r & K' & V' & c' & l' & Hk' & Hc' & -> & -> & (x & -> & Hx)).
      eexists r, _, _. split; [reflexivity|]. split; [intros _; split; [exact Hk'|exact Hc']|]. split; [reflexivity|].
      apply Forall_app. split; [|exact Hx]. eapply Forall_impl; [|exact H0]. intros; apply leftover_fail; assumption. }
    destruct i; cbn [negb].
    - destruct (Hinv eq_refl) as [Hkv Hc]. rewrite !bind_Ok. cbn [negb]. apply HG; [exact Hkv|exact Hc|constructor].
    - destruct (mem_instantiate_ok 0 (mk_drbg false K V c) []) as [(K1 & V1 & l1 & Hk & -> & -> & (x & -> & Hx))|(l1 & -> & -> & (x & -> & Hx))];
        rewrite !bind_Ok; cbn [negb d_inst d_Key d_V d_ctr].
      + apply HG; [exact Hk|lia|exact Hx].
      + eexists None, _, _. split; [reflexivity|]. split; [discriminate|]. split; [reflexivity|exact Hx].
  Qed.
End Reader.
