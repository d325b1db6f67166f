(** C57: looser limits never give weaker parameters nor a refusal.
    C58: verbosity changes nothing but the messages. *)
From Coq Require Import Reals Lra String.
From Flocq Require Import Core IEEE754.BinarySingleNaN.
From Verif Require Import Base SpecBytes SpecSHA SpecScrypt SpecScryptAPI SpecDouble SpecFormat SpecStream M_endian P_endian P_stdio P_scryptenc3 M_verify M_entropy M_smix M_scrypt_sel M_machine M_double P_double M_memlimit P_memlimit
  M_cpuperf P_cpuperf M_params P_params M_humansize M_stdio M_scryptenc P_scrypt P_scrypt_ref P_scryptenc P_scryptenc5 P_monotone Prop_scrypt Prop_params
  M_readpass M_print_error M_main SpecCLI Prop_cli Prop_enc.
Local Open Scope N_scope.
Local Open Scope list_scope.

(** Limits lim' allow at least what lim allows (a memory limit of 0 is no limit). *)
Record looser (lim lim' : limits) : Prop := mk_looser {
  lo_mem : l_maxmem lim' = 0 \/ 0 < l_maxmem lim <= l_maxmem lim';
  lo_frac : dle (l_maxmemfrac lim) (l_maxmemfrac lim') = true;
  lo_time : dle (l_maxtime lim) (l_maxtime lim') = true }.

Lemma looser_ops M cfg sst e lim lim' opps : clock_sane e -> looser lim lim' -> speed M cfg sst e opps ->
  is_nan (dmul opps (l_maxtime lim)) = false /\ is_nan (dmul opps (l_maxtime lim')) = false /\
  dom (dmul opps (l_maxtime lim)) (dmul opps (l_maxtime lim')).
Proof.
  intros (HR & HL) [_ _ Ht] (s1 & HS). destruct (dle_dom _ _ Ht) as (N1 & N2 & HD).
  destruct (cpuperf_value M cfg sst (pv_perf e) s1 opps HS HR HL) as (_ & _ & _ & _ & _ & _ & _ & _ & _ & _ & _ & A9 & A10).
  assert (0 < B2R opps)%R by (pose proof (bpow_gt_0 radix2 (-100)); lra).
  split; [apply mul_time_number; auto|]. split; [apply mul_time_number; auto|]. apply dmul_dom; auto.
Qed.
Lemma speed_fun M cfg sst e o o' : speed M cfg sst e o -> speed M cfg sst e o' -> o' = o.
Proof. intros (s & H) (s' & H'). congruence. Qed.
Lemma budget_fun M e lim L L' : budget M e lim L -> budget M e lim L' -> L' = L.
Proof. unfold budget. congruence. Qed.

(** C57, the choice: on the same machine at the same moment, looser limits choose
    at least as large an N, and for the same N at least as large a p. *)
Theorem C57_choice M cfg sst e lim lim' verbose verbose' s1 msg l r p s2 msg' l' r' p' :
  size_bits (m_szb M) -> clock_sane e -> looser lim lim' ->
  pickparams M cfg sst e lim verbose = Ok (s1, msg, inr (l, r, p)) ->
  pickparams M cfg sst e lim' verbose' = Ok (s2, msg', inr (l', r', p')) ->
  r' = r /\ l <= l' /\ (l = l' -> p <= p').
Proof.
  intros Hs HC HL E E'. pose proof HL as [Hm Hf Ht]. destruct (dle_dom _ _ Ht) as (N1 & N2 & _).
  destruct (C13_chosen_parameters_valid _ _ _ _ _ _ _ _ _ _ _ Hs N1 HC E) as (V1 & V2 & V3 & V4 & _).
  destruct (C13_chosen_parameters_valid _ _ _ _ _ _ _ _ _ _ _ Hs N2 HC E') as (V1' & V2' & V3' & V4' & _).
  destruct (C14_chosen_parameters_respect_limits _ _ _ _ _ _ _ _ _ _ _ Hs N1 HC E) as (L & o & B & S & M1 & M2).
  destruct (C15_chosen_parameters_maximal _ _ _ _ _ _ _ _ _ _ _ Hs N2 HC E') as (L' & o' & B' & S' & X).
  rewrite (speed_fun _ _ _ _ _ _ S S') in X. clear o' S'. cbv zeta in X.
  destruct (looser_ops M cfg sst e lim lim' o HC HL S) as (_ & _ & HD).
  pose proof (memtouse_mono _ _ _ _ _ _ _ _ Hs B B' Hm Hf) as HLL.
  subst r r'. split; [reflexivity|].
  assert (forall n, 2 ^ 15 < n /\ ~ fits n (dmul o (l_maxtime lim')) -> 4 * 2 ^ l * 8 * p < n) as HX.
  { intros n [H1 H2]. destruct (N.lt_ge_cases (4 * 2 ^ l * 8 * p) n) as [|Hge]; [assumption|exfalso]. apply H2.
    destruct M2 as [M2|M2]; [lia|]. apply HD. apply (at_most_le _ (IZR (Z.of_N (4 * 2 ^ l * 8 * p)))); [apply IZR_le; lia|exact M2]. }
  assert (l <= l') as Hll.
  { destruct (N.le_gt_cases l l') as [|Hgt]; [assumption|exfalso].
    assert (2 * 2 ^ l' <= 2 ^ l) as HP by (rewrite <- N.pow_succ_r'; apply N.pow_le_mono_r; lia).
    destruct X as [[Hp X]|[X _]].
    - apply HX in X. rewrite Hp in X. clear - X HP V3. nia.
    - clear - X HP M1 HLL. lia. }
  split; [exact Hll|]. intros <-.
  assert (0 < 2 ^ l) as HP by (apply N.neq_0_lt_0, N.pow_nonzero; lia).
  destruct X as [[Hp X]|[_ [X|X]]].
  - apply HX in X. rewrite Hp in *. clear - X HP. nia.
  - apply HX in X. clear - X HP. nia.
  - clear - X V4. lia.
Qed.
Print Assumptions C57_choice.

(** C57, the check: parameters accepted under some limits are accepted under looser ones. *)
Theorem C57_check M cfg sst e lim lim' logN r p verbose verbose' s1 msg s2 msg' rc :
  size_bits (m_szb M) -> clock_sane e -> looser lim lim' -> r < 2 ^ 32 -> p < 2 ^ 32 ->
  checkparams M cfg sst e lim logN r p verbose false = Ok (s1, msg, SCRYPT_OK) ->
  checkparams M cfg sst e lim' logN r p verbose' false = Ok (s2, msg', rc) ->
  rc = SCRYPT_OK /\ s2 = s1.
Proof.
  intros Hs HC HL Hr32 Hp32 E E'. pose proof HL as [Hm Hf Ht]. unfold checkparams in E, E'.
  destruct (Z.ltb_spec logN 1) as [|Hl1]; [cbn [orb] in E; congruence|].
  destruct (Z.ltb_spec 63 logN) as [|Hl2]; [cbn [orb] in E; congruence|]. cbn [orb] in E, E'.
  assert (w64 (r * p) = r * p) as Hw by (apply w64_small; clear - Hr32 Hp32; nia). rewrite Hw in E, E'.
  destruct (N.leb_spec 0x40000000 (r * p)) as [|Hrp]; [congruence|].
  destruct (N.eqb_spec r 0) as [|Hr]; [cbn [orb] in E; congruence|]. destruct (N.eqb_spec p 0) as [|Hp]; [cbn [orb] in E; congruence|].
  cbn [orb] in E, E'.
  destruct (memtouse (m_szb M) (pv_mem e) (l_maxmem lim) (l_maxmemfrac lim)) as [[L|]| |] eqn:EM; cbn [bind] in E; try congruence.
  destruct (memtouse (m_szb M) (pv_mem e) (l_maxmem lim') (l_maxmemfrac lim')) as [[L'|]| |] eqn:EM'; cbn [bind] in E'; try congruence.
  2: { exfalso. exact (memtouse_known _ _ _ _ _ _ _ EM EM'). }
  destruct (scryptenc_cpuperf M cfg sst (pv_perf e)) as [[s0 [rc0|o]]| |] eqn:EP; cbn [bind] in E, E'; try congruence.
  { split; congruence. }
  destruct (if verbose then _ else _) as [m1| |] in E; cbn [bind] in E; try congruence.
  destruct (if verbose' then _ else _) as [m2| |] in E'; cbn [bind] in E'; try congruence.
  assert (s2 = s1) as Hss by congruence. split; [|exact Hss].
  assert (check_limits L (dmul o (l_maxtime lim)) (Z.to_N logN) r p = SCRYPT_OK) as H1 by congruence.
  assert (rc = check_limits L' (dmul o (l_maxtime lim')) (Z.to_N logN) r p) as -> by congruence. clear E E' Hss.
  assert (r < 2 ^ 30 /\ p < 2 ^ 30) as [Hr30 Hp30] by (clear - Hr Hp Hrp; change 0x40000000 with (2 ^ 30) in Hrp; nia).
  destruct (looser_ops M cfg sst e lim lim' o HC HL (ex_intro _ s0 EP)) as (Y1 & Y2 & HD).
  pose proof (memtouse_mono _ _ _ _ _ _ _ _ Hs EM EM' Hm Hf) as HLL.
  unfold check_limits in *. rewrite shiftl_pow2 in * by lia.
  set (l := Z.to_N logN) in *. assert (l <= 64) as Hl by (unfold l; lia). clearbody l.
  pose proof (cpu_dom (dmul o (l_maxtime lim)) (dmul o (l_maxtime lim')) l r p Hl ltac:(lia) Hr30 ltac:(lia) Hp30 Y1 Y2 HD) as HT.
  unfold cpu_too_slow in HT.
  destruct (dlt (ddiv (ddiv (ddiv (dmul o (l_maxtime lim)) (of_N (2 ^ l))) (of_N r)) (of_N p)) (of_N 4)) eqn:T1.
  { destruct (L / 2 ^ l / r <? 128); cbn [andb] in H1; discriminate. }
  rewrite HT by reflexivity.
  destruct (N.ltb_spec (L / 2 ^ l / r) 128) as [|G1]; cbn [andb] in H1; [discriminate|].
  destruct (N.ltb_spec (L' / 2 ^ l / r) 128) as [G2|]; [exfalso|reflexivity].
  assert (L / 2 ^ l / r <= L' / 2 ^ l / r) by (apply N.div_le_mono; [exact Hr|]; apply N.div_le_mono; [apply N.pow_nonzero; lia|exact HLL]).
  lia.
Qed.
Print Assumptions C57_check.

(** ... and so is a file: what decrypts under some limits decrypts, to the same
    result, under looser ones (when the second run is defined at all: C18_defined_refuted). *)
Definition set_lim (P : xparams) (lim : limits) : xparams := mk_xp lim (x_logN P) (x_r P) (x_p P).
Lemma be32dec_lt f o b : bytes_ok f -> rd f o 4 = Ok b -> be32dec b < 2 ^ 32.
Proof.
  intros HF H. apply rd_Ok_inv in H. destruct H as [HL ->]. assert (length (sub f o 4) = 4%nat) as HN by (apply sub_length; exact HL).
  rewrite be32dec_spec by (auto using bytes_ok_sub). pose proof (be_val_bound (sub f o 4) (bytes_ok_sub _ _ _ HF)) as HB. rewrite HN in HB. exact HB.
Qed.
Lemma dec_setup_looser M cfg lb e P lim' header dk pw v v' lb1 ms P1 dk1 lb2 ms2 P2 dk2 rc :
  size_bits (m_szb M) -> clock_sane (v_params e) -> looser (x_lim P) lim' -> bytes_ok header ->
  scryptdec_setup M cfg lb e P header dk pw v false = Ok (lb1, ms, P1, dk1, SCRYPT_OK) ->
  scryptdec_setup M cfg lb e (set_lim P lim') header dk pw v' false = Ok (lb2, ms2, P2, dk2, rc) ->
  rc = SCRYPT_OK /\ lb2 = lb1 /\ dk2 = dk1 /\ x_logN P2 = x_logN P1 /\ x_r P2 = x_r P1 /\ x_p P2 = x_p P1.
Proof.
  intros Hs HC HL HB H H'. unfold scryptdec_setup in H, H'. cbn [set_lim x_lim] in H'.
  destruct (rd header 7 1); cbn [bind] in *; try discriminate H. destruct (rd header 8 4) eqn:E8; cbn [bind] in *; try discriminate H.
  destruct (rd header 12 4) eqn:E12; cbn [bind] in *; try discriminate H. destruct (rd header 16 32); cbn [bind] in *; try discriminate H.
  destruct (rd header 0 48); cbn [bind] in *; try discriminate H. destruct (sha_once _ _); cbn [bind] in *; try discriminate H.
  destruct (rd header 48 16); cbn [bind] in *; try discriminate H. destruct (crypto_verify_bytes _ _ _); cbn [bind] in *; try discriminate H.
  cbn [x_lim x_logN x_r x_p] in *.
  destruct (negb _); [discriminate H|].
  destruct (checkparams _ _ _ _ _ _ _ _ v _) as [[[s m] rc0]| |] eqn:E; cbn [bind] in *; try discriminate H.
  destruct (checkparams _ _ _ _ _ _ _ _ v' _) as [[[s' m'] rc0']| |] eqn:E'; cbn [bind] in *; try discriminate H'.
  destruct (negb (is_ok rc0)) eqn:EO; [exfalso; assert (rc0 = SCRYPT_OK) as -> by congruence; discriminate EO|].
  assert (rc0 = SCRYPT_OK) as -> by (destruct rc0; try discriminate EO; reflexivity).
  destruct (C57_check _ _ _ _ _ _ _ _ _ _ _ _ _ _ _ _ Hs HC HL (be32dec_lt _ _ _ HB E8) (be32dec_lt _ _ _ HB E12) E E') as [-> ->].
  cbn [is_ok negb] in H'.
  destruct (derive _ _ _ _ _ _ _ _) as [[[[|] d1] l2]| |]; cbn [bind negb] in *; try discriminate H.
  destruct (rd d1 32 32); cbn [bind] in *; try discriminate H. destruct (rd header 0 64); cbn [bind] in *; try discriminate H.
  destruct (hmac_once _ _ _); cbn [bind] in *; try discriminate H. destruct (rd header 64 32); cbn [bind] in *; try discriminate H.
  destruct (crypto_verify_bytes _ _ _); cbn [bind] in *; try discriminate H.
  destruct (_ =? 0); [|discriminate H]. injection H as <- <- <- <-. injection H' as <- <- <- <- <-. repeat split.
Qed.
Ltac step2 H H' :=
  match type of H with
  | bind ?x _ = Ok _ => destruct x as [?| |]; cbn [bind] in H, H'; try discriminate H
  | (match ?x with _ => _ end) = Ok _ => destruct x; cbn [bind] in H, H'; try discriminate H
  end.
Theorem C57_decrypt_buffer M cfg lb h e inbuf outbuf outlen pw P lim' v v' o o' :
  size_bits (m_szb M) -> clock_sane (v_params e) -> looser (x_lim P) lim' -> bytes_ok inbuf ->
  scryptdec_buf M cfg lb h e inbuf outbuf outlen pw P v false = Ok o -> oc_rc o = SCRYPT_OK ->
  scryptdec_buf M cfg lb h e inbuf outbuf outlen pw (set_lim P lim') v' false = Ok o' ->
  oc_rc o' = SCRYPT_OK /\ oc_val o' = oc_val o /\ oc_heap o' = oc_heap o /\ oc_lib o' = oc_lib o.
Proof.
  intros Hs HC HL HB H HO H'. unfold scryptdec_buf in H, H'. change (all_zero (set_lim P lim')) with (all_zero P) in H'.
  destruct (assert_ _); cbn [bind] in *; try discriminate.
  destruct (Nat.ltb _ 7); [injection H as <-; discriminate HO|]. destruct (rd inbuf 0 6); cbn [bind] in *; try discriminate H.
  destruct (negb _); [injection H as <-; discriminate HO|]. destruct (rd inbuf 6 1); cbn [bind] in *; try discriminate H.
  destruct (negb _); [injection H as <-; discriminate HO|]. destruct (Nat.ltb _ 128); [injection H as <-; discriminate HO|].
  destruct (scryptdec_setup _ _ _ _ _ _ _ _ v _) as [[[[[l1 m1] P1] d1] r1]| |] eqn:E; cbn [bind] in *; try discriminate H.
  destruct (scryptdec_setup _ _ _ _ _ _ _ _ v' _) as [[[[[l2 m2] P2] d2] r2]| |] eqn:E'; cbn [bind] in *; try discriminate H'.
  destruct (negb (is_ok r1)) eqn:EO.
  { exfalso. destruct (zero_dk d1); cbn [bind] in H; try discriminate H. injection H as <-. cbn [oc_rc] in HO. subst r1. discriminate EO. }
  assert (r1 = SCRYPT_OK) as -> by (destruct r1; try discriminate EO; reflexivity).
  destruct (dec_setup_looser _ _ _ _ _ _ _ _ _ _ _ _ _ _ _ _ _ _ _ _ Hs HC HL HB E E') as (-> & -> & -> & _).
  cbn [is_ok negb] in H'.
  repeat (step2 H H'); injection H as <-; cbn [oc_rc] in HO; try discriminate HO; injection H' as <-; repeat split; try assumption.
Qed.
Print Assumptions C57_decrypt_buffer.
Theorem C57_decrypt_stream M cfg lb h e fi fo pw P lim' v v' o o' :
  size_bits (m_szb M) -> clock_sane (v_params e) -> looser (x_lim P) lim' -> input_ok fi ->
  scryptdec_file M cfg lb h e fi fo pw P v false = Ok o -> oc_rc o = SCRYPT_OK ->
  scryptdec_file M cfg lb h e fi fo pw (set_lim P lim') v' false = Ok o' ->
  oc_rc o' = SCRYPT_OK /\ oc_val o' = oc_val o /\ oc_heap o' = oc_heap o /\ oc_lib o' = oc_lib o.
Proof.
  intros Hs HC HL HI H HO H'. unfold scryptdec_file, scryptdec_file_prep in H, H'. change (all_zero (set_lim P lim')) with (all_zero P) in H'.
  destruct (assert_ _); cbn [bind] in *; try discriminate.
  destruct (negb (v_cookie_mem e)); [cbn in H; injection H as <-; discriminate HO|].
  destruct (kh_alloc _ h) as [ci h1]. destruct (load_header_ok fi HI) as (rc & hd & fi1 & HLH & HR). rewrite HLH in H, H'.
  destruct (negb (is_ok rc)) eqn:ER.
  { exfalso. destruct (zero_free ci h1); cbn [bind oc_val oc_rc] in H; try discriminate H. rewrite ER in H. injection H as <-. cbn [oc_rc] in HO. subst rc. discriminate ER. }
  assert (bytes_ok hd) as HB by (destruct HR; [apply bytes_ok_firstn, stream_data_ok, HI|constructor..]).
  destruct (scryptdec_setup _ _ _ _ _ _ _ _ v _) as [[[[[l1 m1] P1] d1] r1]| |] eqn:E; cbn [bind] in *; try discriminate H.
  destruct (scryptdec_setup _ _ _ _ _ _ _ _ v' _) as [[[[[l2 m2] P2] d2] r2]| |] eqn:E'; cbn [bind] in *; try discriminate H'.
  destruct (kh_set ci (Some (S_cookie d1)) h1) as [h2| |] eqn:EH; cbn [bind] in H; try discriminate H.
  destruct (negb (is_ok r1)) eqn:EO.
  { exfalso. destruct (zero_free ci h2); cbn [bind oc_val oc_rc] in H; try discriminate H. rewrite EO in H. injection H as <-. cbn [oc_rc] in HO. subst r1. discriminate EO. }
  assert (r1 = SCRYPT_OK) as -> by (destruct r1; try discriminate EO; reflexivity).
  destruct (dec_setup_looser _ _ _ _ _ _ _ _ _ _ _ _ _ _ _ _ _ _ _ _ Hs HC HL HB E E') as (-> & -> & -> & _).
  rewrite EH in H'. change (is_ok SCRYPT_OK) with true in H'. cbn [bind negb oc_val oc_rc oc_lib oc_msgs oc_P oc_heap] in H, H'.
  change (is_ok SCRYPT_OK) with true in H, H'. cbn [negb] in H, H'.
  destruct (scryptdec_file_copy _ _ _ _ _ _) as [[[[rc1 fi2] fo2] h3]| |]; cbn [bind] in *; try discriminate H.
  destruct (scryptdec_file_cookie_free _ _); cbn [bind] in *; try discriminate H.
  injection H as <-. injection H' as <-. repeat split; assumption.
Qed.
Print Assumptions C57_decrypt_stream.

(** ** C58: at the level of the interface *)
Definition not_params (m : msg) : bool := match m with Msg_params _ => false | _ => true end.
Definition warnings (ms : list msg) : list msg := filter not_params ms.
(** The display needs memory for the two sizes it prints. *)
Definition can_display (verbose : bool) (e : params_env) : Prop := verbose = true -> pv_al1 e = true /\ pv_al2 e = true.
(** o and o' differ only in the display of the parameters, which o' lacks unless verbose. *)
Record alike {A} (verbose : bool) (o o' : outcome A) : Prop := mk_alike {
  q_rc : oc_rc o' = oc_rc o; q_lib : oc_lib o' = oc_lib o; q_P : oc_P o' = oc_P o; q_dk : oc_dk o' = oc_dk o;
  q_heap : oc_heap o' = oc_heap o; q_val : oc_val o' = oc_val o; q_warn : warnings (oc_msgs o') = warnings (oc_msgs o);
  q_quiet : verbose = false -> oc_msgs o' = warnings (oc_msgs o') }.
Definition msgs_alike (verbose : bool) (ms ms' : list msg) : Prop :=
  warnings ms' = warnings ms /\ (verbose = false -> ms' = warnings ms').
Lemma alike_mk {A} v rc lb ms ms' P dk h (x : A) : msgs_alike v ms ms' -> alike v (mk_oc rc lb ms P dk h x) (mk_oc rc lb ms' P dk h x).
Proof. intros [H1 H2]. constructor; try reflexivity; assumption. Qed.
Lemma opt_msg_quiet m : warnings (opt_msg m) = [].
Proof. destruct m; reflexivity. Qed.
Lemma msgs_opt v m m' : (v = false -> m' = None) -> msgs_alike v (opt_msg m) (opt_msg m').
Proof. intros H. split; [rewrite !opt_msg_quiet; reflexivity|]. intros E. rewrite (H E). reflexivity. Qed.
Lemma msgs_app v a a' b : Forall (fun m => not_params m = true) b -> msgs_alike v a a' -> msgs_alike v (a ++ b) (a' ++ b).
Proof.
  intros HF [H1 H2]. unfold msgs_alike, warnings in *. split; rewrite !filter_app; [rewrite H1; reflexivity|]. intros E. rewrite (H2 E) at 1.
  f_equal. induction HF as [|x l Hx HF IH]; [reflexivity|]. cbn [filter]. rewrite Hx. f_equal. exact IH.
Qed.
Lemma msgs_nil v : msgs_alike v [] [].
Proof. split; reflexivity. Qed.
Lemma display_any verbose al1 al2 logN r p lim o t : (0 <= logN < 64)%Z -> lim < 2 ^ 64 -> (verbose = true -> al1 = true /\ al2 = true) ->
  exists m, (if verbose then d <- display_params al1 al2 logN r p lim o t ;; Ok (Some d) else Ok None) = Ok m /\ (verbose = false -> m = None).
Proof.
  intros HL HM HA. destruct verbose; [|eauto]. destruct (HA eq_refl) as [-> ->].
  destruct (display_total logN r p lim o t HL HM) as [m ->]. eexists. split; [reflexivity|discriminate].
Qed.
Lemma check_any M cfg sst e lim l r p v v' force s m rc : size_bits (m_szb M) -> can_display v' e ->
  checkparams M cfg sst e lim l r p v force = Ok (s, m, rc) ->
  exists m', checkparams M cfg sst e lim l r p v' force = Ok (s, m', rc) /\ (v' = false -> m' = None).
Proof.
  intros Hs HA. unfold checkparams.
  destruct (Z.ltb_spec l 1) as [|Hl1]; [cbn [orb]; intros E; eexists; split; [|reflexivity]; congruence|].
  destruct (Z.ltb_spec 63 l) as [|Hl2]; [cbn [orb]; intros E; eexists; split; [|reflexivity]; congruence|]. cbn [orb].
  destruct (_ <=? _); [intros E; eexists; split; [|reflexivity]; congruence|].
  destruct (_ || _)%bool; [intros E; eexists; split; [|reflexivity]; congruence|].
  assert (0 <= l < 64)%Z as HL by lia.
  destruct force.
  - intros E. destruct (if v then _ else _) as [m1| |] in E; cbn [bind] in E; try discriminate.
    destruct (display_any v' (pv_al1 e) (pv_al2 e) l r p 0 d0 (l_maxtime lim) HL ltac:(lia) HA) as (m2 & -> & HQ).
    cbn [bind]. exists m2. split; [congruence|exact HQ].
  - destruct (memtouse _ _ _ _) as [[L|]| |] eqn:EM; cbn [bind]; try discriminate; [|intros E; eexists; split; [|reflexivity]; congruence].
    pose proof (proj1 (memtouse_range _ _ _ _ _ Hs EM)) as HLr.
    destruct (scryptenc_cpuperf _ _ _ _) as [[s0 [rc0|o]]| |]; cbn [bind]; try discriminate; [intros E; eexists; split; [|reflexivity]; congruence|].
    intros E. destruct (if v then _ else _) as [m1| |] in E; cbn [bind] in E; try discriminate.
    destruct (display_any v' (pv_al1 e) (pv_al2 e) l r p L o (l_maxtime lim) HL ltac:(lia) HA) as (m2 & -> & HQ).
    cbn [bind]. exists m2. split; [congruence|exact HQ].
Qed.
(** Parameters within the two limits are accepted. *)
Lemma check_within M cfg sst e lim l r p verbose L opps : size_bits (m_szb M) -> can_display verbose e ->
  1 <= l <= 63 -> 0 < r -> 0 < p -> r * p < 2 ^ 30 -> budget M e lim L -> speed M cfg sst e opps ->
  128 * 2 ^ l * r <= L -> fits (4 * 2 ^ l * r * p) (dmul opps (l_maxtime lim)) ->
  exists sst' m, checkparams M cfg sst e lim (Z.of_N l) r p verbose false = Ok (sst', m, SCRYPT_OK).
Proof.
  intros Hs HA Hl Hr Hp Hrp HB HS HL HF.
  destruct (checkparams_total M cfg sst e lim l r p L opps Hl Hr Hp Hrp HB HS) as (s1 & rc & E).
  destruct (C16_limit_checks _ _ _ _ _ _ _ _ _ _ _ _ _ _ Hl Hr Hp Hrp HB HS E) as (big & slow & -> & D1 & D2 & _).
  rewrite (D2 HF) in E. destruct big; [exfalso; pose proof (proj1 D1 eq_refl); lia|].
  destruct (check_any _ _ _ _ _ _ _ _ _ verbose _ _ _ _ Hs HA E) as (m' & E' & _). eauto.
Qed.
Lemma speed_positive M cfg sst e opps : clock_sane e -> speed M cfg sst e opps -> is_finite opps = true /\ (0 < B2R opps)%R.
Proof.
  intros (HR & HL) (s1 & HS). destruct (cpuperf_value M cfg sst (pv_perf e) s1 opps HS HR HL) as (_ & _ & _ & _ & _ & _ & _ & _ & _ & _ & _ & A9 & A10).
  split; [exact A9|]. pose proof (bpow_gt_0 radix2 (-100)). lra.
Qed.
Lemma no_time_limit M cfg sst e opps n : clock_sane e -> speed M cfg sst e opps -> fits n (dmul opps dinf).
Proof. intros HC HS. destruct (speed_positive _ _ _ _ _ HC HS) as [F P]. unfold dinf. rewrite dmul_inf by assumption. apply fits_inf. Qed.
(** 1 second and 5 million bytes at most, or half of the memory and no time limit. *)
Definition ex_tight : limits := mk_limits 5000000 d0_125 (of_N 1).
Definition ex_loose : limits := mk_limits 0 d0_5 dinf.
Lemma ex_clock : clock_sane ex_env.
Proof. destruct C45_hyps as (_ & _ & H3 & H4). split; assumption. Qed.
Example C57_hyps sst : looser ex_tight ex_loose /\ clock_sane ex_env /\ size_bits (m_szb ex_machine) /\
  (exists s l r p, pickparams ex_machine ex_cfg sst ex_env ex_tight false = Ok (s, None, inr (l, r, p))) /\
  (exists s l r p, pickparams ex_machine ex_cfg sst ex_env ex_loose false = Ok (s, None, inr (l, r, p))) /\
  looser (ex_lim dinf) ex_loose /\
  (exists s m, checkparams ex_machine ex_cfg sst ex_env (ex_lim dinf) 14 8 1 true false = Ok (s, m, SCRYPT_OK)) /\
  (exists s m rc, checkparams ex_machine ex_cfg sst ex_env ex_loose 14 8 1 true false = Ok (s, m, rc)).
Proof.
  assert (budget ex_machine ex_env ex_tight 5000000) as B1 by (unfold budget, ex_tight; cbn [l_maxmem l_maxmemfrac]; vm_compute; reflexivity).
  assert (budget ex_machine ex_env ex_loose (2 ^ 32)) as B2 by (unfold budget, ex_loose; cbn [l_maxmem l_maxmemfrac]; vm_compute; reflexivity).
  pose proof (ex_budget dinf) as B3. destruct (ex_speed sst) as [opps HS].
  assert (size_bits (m_szb ex_machine)) as HZ by (right; reflexivity).
  split; [constructor; [left; reflexivity|vm_compute; reflexivity|vm_compute; reflexivity]|]. split; [exact ex_clock|]. split; [exact HZ|].
  split; [exact (C13_total ex_machine ex_cfg sst ex_env ex_tight _ opps HZ ltac:(vm_compute; reflexivity) ex_clock B1 HS)|].
  split; [exact (C13_total ex_machine ex_cfg sst ex_env ex_loose _ opps HZ ltac:(vm_compute; reflexivity) ex_clock B2 HS)|].
  split; [constructor; [left; reflexivity|vm_compute; reflexivity|vm_compute; reflexivity]|].
  assert (can_display true ex_env) as HA by (intros _; split; reflexivity).
  split.
  - apply (check_within ex_machine ex_cfg sst ex_env (ex_lim dinf) 14 8 1 true (2 ^ 30) opps); try assumption; try reflexivity; [lia|discriminate|].
    apply (no_time_limit ex_machine ex_cfg sst ex_env); [exact ex_clock|exact HS].
  - destruct (check_within ex_machine ex_cfg sst ex_env ex_loose 14 8 1 true (2 ^ 32) opps) as (s & m & E); try assumption; try reflexivity; [lia|discriminate| |eauto].
    apply (no_time_limit ex_machine ex_cfg sst ex_env); [exact ex_clock|exact HS].
Qed.
Lemma pick_logN_range half : forall f l, 1 <= l <= 63 -> 1 <= pick_logN f l half <= 63.
Proof.
  induction f as [|f IH]; intros l Hl; cbn [pick_logN]; [exact Hl|].
  destruct (N.ltb_spec l 63); [|exact Hl]. destruct (dlt _ _); [exact Hl|]. apply IH. lia.
Qed.
Lemma pick_from_range L o l r p : pick_from_limits L o = Ok (l, r, p) -> 1 <= l <= 63.
Proof.
  unfold pick_from_limits. destruct (dlt _ _).
  - intros E. assert (l = pick_logN 63 1 (ddiv (ddiv o (of_N (w32 (8 * 4)))) (of_N 2))) as -> by congruence. apply pick_logN_range. lia.
  - cbv zeta. destruct (to_uint _ _); cbn [bind]; try discriminate. intros E.
    assert (l = pick_logN 63 1 (ddiv (of_N (L / w32 (8 * 128))) (of_N 2))) as -> by congruence. apply pick_logN_range. lia.
Qed.
Lemma pick_any M cfg sst e lim v v' s m x : size_bits (m_szb M) -> can_display v' e ->
  pickparams M cfg sst e lim v = Ok (s, m, x) ->
  exists m', pickparams M cfg sst e lim v' = Ok (s, m', x) /\ (v' = false -> m' = None).
Proof.
  intros Hs HA. unfold pickparams.
  destruct (memtouse _ _ _ _) as [[L|]| |] eqn:EM; cbn [bind]; try discriminate; [|intros E; eexists; split; [|reflexivity]; congruence].
  pose proof (proj1 (memtouse_range _ _ _ _ _ Hs EM)) as HLr.
  destruct (scryptenc_cpuperf _ _ _ _) as [[s0 [rc0|o]]| |]; cbn [bind]; try discriminate; [intros E; eexists; split; [|reflexivity]; congruence|].
  destruct (pick_from_limits _ _) as [[[l r] p]| |] eqn:EK; cbn [bind]; try discriminate.
  pose proof (pick_from_range _ _ _ _ _ EK) as HR.
  intros E. destruct (if v then _ else _) as [m1| |] in E; cbn [bind] in E; try discriminate.
  destruct (display_any v' (pv_al1 e) (pv_al2 e) (Z.of_N l) r p L o (l_maxtime lim) ltac:(lia) ltac:(lia) HA) as (m2 & -> & HQ).
  cbn [bind]. exists m2. split; [congruence|exact HQ].
Qed.
Lemma setup_params_any M cfg lb e P v v' force lb' ms P' rc : size_bits (m_szb M) -> can_display v' (v_params e) ->
  setup_params M cfg lb e P v force = Ok (lb', ms, P', rc) ->
  exists ms', setup_params M cfg lb e P v' force = Ok (lb', ms', P', rc) /\ msgs_alike v' ms ms'.
Proof.
  intros Hs HA. unfold setup_params. destruct (negb _).
  - destruct (checkparams _ _ _ _ _ _ _ _ v _) as [[[s m] rc0]| |] eqn:E; cbn [bind]; intros H; try discriminate H.
    destruct (check_any _ _ _ _ _ _ _ _ _ v' _ _ _ _ Hs HA E) as (m' & -> & HQ). cbn [bind].
    injection H as <- <- <- <-. eexists. split; [reflexivity|]. apply msgs_app; [|apply msgs_opt; exact HQ].
    destruct rc0; repeat constructor.
  - destruct (pickparams _ _ _ _ _ v) as [[[s m] x]| |] eqn:E; cbn [bind]; intros H; try discriminate H.
    destruct (pick_any _ _ _ _ _ _ v' _ _ _ Hs HA E) as (m' & -> & HQ). cbn [bind].
    destruct x as [rc0|[[l r] p]]; injection H as <- <- <- <-; (eexists; split; [reflexivity|apply msgs_opt; exact HQ]).
Qed.
Lemma enc_setup_any M cfg lb e P header dk pw v v' force lb' ms P' h' dk' rc : size_bits (m_szb M) -> can_display v' (v_params e) ->
  scryptenc_setup M cfg lb e P header dk pw v force = Ok (lb', ms, P', h', dk', rc) ->
  exists ms', scryptenc_setup M cfg lb e P header dk pw v' force = Ok (lb', ms', P', h', dk', rc) /\ msgs_alike v' ms ms'.
Proof.
  intros Hs HA. unfold scryptenc_setup.
  destruct (setup_params _ _ _ _ _ v _) as [[[[l1 m1] P1] r1]| |] eqn:E; cbn [bind]; intros H; try discriminate H.
  destruct (setup_params_any _ _ _ _ _ _ v' _ _ _ _ _ Hs HA E) as (m' & -> & HQ). cbn [bind]. exists m'. split.
  2: { replace ms with m1; [exact HQ|]. clear - H.
    destruct (negb (is_ok r1)); [congruence|]. destruct (assert_ _); cbn [bind] in *; try discriminate H.
    destruct (crypto_entropy_read _ _ _ _ _) as [[[salt|] d]| |]; cbn [bind] in *; try discriminate H; [|congruence].
    destruct (derive _ _ _ _ _ _ _ _) as [[[[|] dk1] l2]| |]; cbn [bind negb] in *; try discriminate H; [|congruence].
    destruct (build_header _ _ _ _ _ _ _); cbn [bind] in *; try discriminate H. congruence. }
  destruct (negb (is_ok r1)); [congruence|]. destruct (assert_ _); cbn [bind] in *; try discriminate H.
  destruct (crypto_entropy_read _ _ _ _ _) as [[[salt|] d]| |]; cbn [bind] in *; try discriminate H; [|congruence].
  destruct (derive _ _ _ _ _ _ _ _) as [[[[|] dk1] l2]| |]; cbn [bind negb] in *; try discriminate H; [|congruence].
  destruct (build_header _ _ _ _ _ _ _); cbn [bind] in *; try discriminate H. congruence.
Qed.
Lemma dec_setup_any M cfg lb e P header dk pw v v' force lb' ms P' dk' rc : size_bits (m_szb M) -> can_display v' (v_params e) ->
  scryptdec_setup M cfg lb e P header dk pw v force = Ok (lb', ms, P', dk', rc) ->
  exists ms', scryptdec_setup M cfg lb e P header dk pw v' force = Ok (lb', ms', P', dk', rc) /\ msgs_alike v' ms ms'.
Proof.
  intros Hs HA. unfold scryptdec_setup. intros H.
  destruct (rd header 7 1); cbn [bind] in *; try discriminate H. destruct (rd header 8 4); cbn [bind] in *; try discriminate H.
  destruct (rd header 12 4); cbn [bind] in *; try discriminate H. destruct (rd header 16 32); cbn [bind] in *; try discriminate H.
  destruct (rd header 0 48); cbn [bind] in *; try discriminate H. destruct (sha_once _ _); cbn [bind] in *; try discriminate H.
  destruct (rd header 48 16); cbn [bind] in *; try discriminate H. destruct (crypto_verify_bytes _ _ _); cbn [bind] in *; try discriminate H.
  destruct (negb _); [injection H as <- <- <- <- <-; eexists; split; [reflexivity|apply msgs_nil]|].
  destruct (checkparams _ _ _ _ _ _ _ _ v _) as [[[s m] rc0]| |] eqn:E; cbn [bind] in *; try discriminate H.
  destruct (check_any _ _ _ _ _ _ _ _ _ v' _ _ _ _ Hs HA E) as (m' & -> & HQ). cbn [bind].
  pose proof (msgs_opt v' m m' HQ) as HM.
  destruct (negb (is_ok rc0)); [injection H as <- <- <- <- <-; eexists; split; [reflexivity|exact HM]|].
  destruct (derive _ _ _ _ _ _ _ _) as [[[[|] dk1] l2]| |]; cbn [bind negb] in *; try discriminate H;
    [|injection H as <- <- <- <- <-; eexists; split; [reflexivity|exact HM]].
  destruct (rd dk1 32 32); cbn [bind] in *; try discriminate H. destruct (rd header 0 64); cbn [bind] in *; try discriminate H.
  destruct (hmac_once _ _ _); cbn [bind] in *; try discriminate H. destruct (rd header 64 32); cbn [bind] in *; try discriminate H.
  destruct (crypto_verify_bytes _ _ _); cbn [bind] in *; try discriminate H.
  destruct (negb _); (injection H as <- <- <- <- <-; eexists; split; [reflexivity|exact HM]).
Qed.
Ltac step H :=
  match type of H with
  | bind ?x _ = Ok _ => destruct x as [?| |]; cbn [bind] in H |- *; try discriminate H
  | (match ?x with _ => _ end) = Ok _ => destruct x; cbn [bind] in H |- *; try discriminate H
  end.
Ltac finish H := injection H as <-; eexists; split; [reflexivity|first [apply alike_mk; assumption|apply alike_mk, msgs_nil]].

Section C58.
  Context (M : machine) (cfg : clk_cfg) (lb : lib) (h : kheap) (e : call_env) (v v' : bool).
  Context (Hs : size_bits (m_szb M)) (HA : can_display v' (v_params e)).
  (** C58. *)
  Theorem C58_encrypt_buffer inbuf outbuf pw P force o :
    scryptenc_buf M cfg lb h e inbuf outbuf pw P v force = Ok o ->
    exists o', scryptenc_buf M cfg lb h e inbuf outbuf pw P v' force = Ok o' /\ alike v' o o'.
  Proof.
    unfold scryptenc_buf. destruct (assert_ _); cbn [bind]; try discriminate.
    destruct (scryptenc_setup _ _ _ _ _ _ _ _ v _) as [[[[[[l1 m1] P1] h1] d1] r1]| |] eqn:E; cbn [bind]; intros H; try discriminate H.
    destruct (enc_setup_any _ _ _ _ _ _ _ _ _ v' _ _ _ _ _ _ _ Hs HA E) as (m' & -> & HQ). cbn [bind].
    repeat (step H); finish H.
  Qed.
  Theorem C58_decrypt_buffer inbuf outbuf outlen pw P force o :
    scryptdec_buf M cfg lb h e inbuf outbuf outlen pw P v force = Ok o ->
    exists o', scryptdec_buf M cfg lb h e inbuf outbuf outlen pw P v' force = Ok o' /\ alike v' o o'.
  Proof.
    unfold scryptdec_buf. destruct (assert_ _); cbn [bind]; try discriminate. intros H.
    destruct (Nat.ltb _ 7); [finish H|]. step H. destruct (negb _); [finish H|]. step H. destruct (negb _); [finish H|].
    destruct (Nat.ltb _ 128); [finish H|].
    destruct (scryptdec_setup _ _ _ _ _ _ _ _ v _) as [[[[[l1 m1] P1] d1] r1]| |] eqn:E; cbn [bind] in *; try discriminate H.
    destruct (dec_setup_any _ _ _ _ _ _ _ _ _ v' _ _ _ _ _ _ Hs HA E) as (m' & -> & HQ). cbn [bind].
    repeat (step H); finish H.
  Qed.
  Theorem C58_encrypt_stream fi fo pw P force o :
    scryptenc_file M cfg lb h e fi fo pw P v force = Ok o ->
    exists o', scryptenc_file M cfg lb h e fi fo pw P v' force = Ok o' /\ alike v' o o'.
  Proof.
    unfold scryptenc_file. destruct (assert_ _); cbn [bind]; try discriminate.
    destruct (scryptenc_setup _ _ _ _ _ _ _ _ v _) as [[[[[[l1 m1] P1] h1] d1] r1]| |] eqn:E; cbn [bind]; intros H; try discriminate H.
    destruct (enc_setup_any _ _ _ _ _ _ _ _ _ v' _ _ _ _ _ _ _ Hs HA E) as (m' & -> & HQ). cbn [bind].
    repeat (step H); finish H.
  Qed.
  Theorem C58_prepare fi pw P force C0 o :
    scryptdec_file_prep M cfg lb h e fi pw P v force C0 = Ok o ->
    exists o', scryptdec_file_prep M cfg lb h e fi pw P v' force C0 = Ok o' /\ alike v' o o'.
  Proof.
    unfold scryptdec_file_prep. destruct (assert_ _); cbn [bind]; try discriminate. intros H.
    destruct (negb (v_cookie_mem e)); [finish H|].
    destruct (kh_alloc _ h) as [ci h1]. destruct (load_header fi) as [[rc hd] fi1].
    destruct (negb (is_ok rc)); [step H; finish H|].
    destruct (scryptdec_setup _ _ _ _ _ _ _ _ v _) as [[[[[l1 m1] P1] d1] r1]| |] eqn:E; cbn [bind] in *; try discriminate H.
    destruct (dec_setup_any _ _ _ _ _ _ _ _ _ v' _ _ _ _ _ _ Hs HA E) as (m' & -> & HQ). cbn [bind].
    repeat (step H); finish H.
  Qed.
  Theorem C58_decrypt_stream fi fo pw P force o :
    scryptdec_file M cfg lb h e fi fo pw P v force = Ok o ->
    exists o', scryptdec_file M cfg lb h e fi fo pw P v' force = Ok o' /\ alike v' o o'.
  Proof.
    unfold scryptdec_file. destruct (assert_ _); cbn [bind]; try discriminate. intros H.
    destruct (scryptdec_file_prep _ _ _ _ _ _ _ _ v _ _) as [o1| |] eqn:E; cbn [bind] in *; try discriminate H.
    destruct (C58_prepare _ _ _ _ _ _ E) as (o2 & -> & [Q1 Q2 Q3 Q4 Q5 Q6 Q7 Q8]). cbn [bind].
    rewrite Q1, Q2, Q3, Q5, Q6. assert (msgs_alike v' (oc_msgs o1) (oc_msgs o2)) as HQ by (split; assumption).
    repeat (step H); finish H.
  Qed.
End C58.
Definition Prop_monotone_all := (C57_choice, C57_check, C57_decrypt_buffer, C57_decrypt_stream).
Print Assumptions Prop_monotone_all.
