(** Properties C48 (hardware routines) and C49 (aligned pointers). *)
From Verif Require Import Base SpecBytes SpecSHA SpecAES M_endian P_endian M_sha256_tr P_sha256_tr M_simd M_sha256_hw P_sha256_hw M_sha256 P_sha256 Prop_sha
  M_aes_hw P_aes M_aesctr Prop_aes P_scrypt_ref M_hwaccel M_align.

(** ** Vocabulary *)
(** A routine passes the SHA-256 self-test: it computes the FIPS 180-4
    compression of the block 00 01 .. 3f from the initial hash value. *)
Definition sha_passes (func : transform_fn) (W S_ : list N) : Prop :=
  func H256 (map N.of_nat (seq 0 64)) W S_ = Ok (compress H256 (map N.of_nat (seq 0 64))).
(** A routine passes the AES self-test: it encrypts the FIPS 197 example with
    the 128-bit key 00..0f and with the 256-bit key 00..1f correctly. *)
Definition aes_passes (func : oneshot) : Prop :=
  func (map N.of_nat (seq 0 16) ++ repeat 0 16) 16%nat fips_pt = Ok (Some (aes_encrypt (map N.of_nat (seq 0 16)) fips_pt)) /\
  func (map N.of_nat (seq 0 32)) 32%nat fips_pt = Ok (Some (aes_encrypt (map N.of_nat (seq 0 32)) fips_pt)).
(** Features a routine needs. *)
Definition sha_needs (h : sha_hw) : list feature :=
  match h with HW_SOFTWARE => [] | HW_X86_SHANI => [F_shani; F_ssse3] | HW_X86_SSE2 => [F_sse2] | HW_ARM_SHA256 => [F_arm_sha256] end.
Definition aes_needs (h : aes_hw) : list feature :=
  match h with AES_SOFTWARE => [] | AES_X86_AESNI => [F_aesni] | AES_ARM_AES => [F_arm_aes] end.

(** *** A history of uses of the library on a possibly faulty machine.  Each use
    comes with what the detection functions would answer and how the routines
    behave at that moment. *)
Record moment := mk_moment {
  mo_det : feature -> bool;
  mo_sha : sha_hw -> transform_fn; mo_W : list N; mo_S : list N;
  mo_x86 : oneshot; mo_arm : oneshot; mo_ssl : oneshot }.
Definition scratch_ok (m : moment) : Prop := length (mo_W m) = 64%nat.
Inductive use := Use_sha | Use_aes | Use_aesctr | Use_feature (f : feature).
Record hw_state := mk_hs { hs_cache : cpu_cache; hs_sha : option sha_hw; hs_aes : option aes_hw; hs_ctr : option aes_hw }.
Definition hs0 : hw_state := mk_hs cache0 None None None.
Definition hw_step (built : build) (s : hw_state) (u : use) (m : moment) : res (hw_state * list hw_warning) :=
  match u with
  | Use_sha =>
      ' (c, h, ws) <- sha_hwaccel_init built (mo_det m) (mo_sha m) (mo_W m) (mo_S m) (hs_cache s) (hs_sha s) ;;
      Ok (mk_hs c (Some h) (hs_aes s) (hs_ctr s), ws)
  | Use_aes =>
      ' (c, h, ws) <- aes_hwaccel_init built (mo_det m) (mo_x86 m) (mo_arm m) (mo_ssl m) (hs_cache s) (hs_aes s) ;;
      Ok (mk_hs c (hs_sha s) (Some h) (hs_ctr s), ws)
  | Use_aesctr =>
      ' (c, a, h, ws) <- aesctr_hwaccel_init built (mo_det m) (mo_x86 m) (mo_arm m) (mo_ssl m) (hs_cache s) (hs_aes s) (hs_ctr s) ;;
      Ok (mk_hs c (hs_sha s) a (Some h), ws)
  | Use_feature f =>
      let '(_, c) := cpusupport (mo_det m) (hs_cache s) f in Ok (mk_hs c (hs_sha s) (hs_aes s) (hs_ctr s), [])
  end.
Fixpoint hw_run (built : build) (s : hw_state) (us : list (use * moment)) : res (hw_state * list hw_warning) :=
  match us with
  | [] => Ok (s, [])
  | (u, m) :: us' =>
      ' (s, ws) <- hw_step built s u m ;;
      ' (s, ws') <- hw_run built s us' ;;
      Ok (s, ws ++ ws')
  end.
(** Some moment of the history. *)
Definition at_some (us : list (use * moment)) (P : moment -> Prop) : Prop := exists m, In m (map snd us) /\ P m.

(** ** Proofs *)
Lemma test_block_eq : test_block = map N.of_nat (seq 0 64). Proof. reflexivity. Qed.
Lemma initial_state_H256 : initial_state = H256.
Proof. Transparent H256. vm_compute. reflexivity. Qed.
Global Opaque H256.
Lemma sw_test W : length W = 64%nat -> SHA256_Transform_sw initial_state test_block W = Ok (compress H256 (map N.of_nat (seq 0 64))).
Proof.
  intros HW. rewrite initial_state_H256, test_block_eq. apply SHA256_Transform_sw_correct; auto.
  repeat constructor.
Qed.
Lemma hwtest_spec W S_ func t : length W = 64%nat -> hwtest W S_ func = Ok t -> t = true <-> sha_passes func W S_.
Proof.
  intros HW E. unfold hwtest in E. rewrite sw_test in E by exact HW. rewrite bind_Ok in E.
  unfold sha_passes. rewrite test_block_eq, initial_state_H256 in E. revert E.
  generalize (compress H256 (map N.of_nat (seq 0 64))) as z. generalize (func H256 (map N.of_nat (seq 0 64)) W S_) as y. clear.
  intros y z E. destruct y as [x| |]; [|discriminate E|discriminate E]. rewrite bind_Ok in E.
  assert (t = list_eqb z x) as -> by congruence.
  rewrite list_eqb_spec. split; congruence.
Qed.
Lemma functest_spec func t : functest func = Ok t -> t = true <-> aes_passes func.
Proof.
  intros E. unfold aes_passes. rewrite fips197_c1, fips197_c3.
  unfold functest, aes_tests, functest_loop in E. cbn [t_len t_key t_ptext t_ctext Nat.eqb orb assert_] in E. rewrite !bind_Ok in E.
  change aes_ptext with fips_pt in E.
  change (map N.of_nat (seq 0 16)) with [0x00; 0x01; 0x02; 0x03; 0x04; 0x05; 0x06; 0x07; 0x08; 0x09; 0x0a; 0x0b; 0x0c; 0x0d; 0x0e; 0x0f].
  change (map N.of_nat (seq 0 32)) with [0x00; 0x01; 0x02; 0x03; 0x04; 0x05; 0x06; 0x07; 0x08; 0x09; 0x0a; 0x0b; 0x0c; 0x0d; 0x0e; 0x0f;
             0x10; 0x11; 0x12; 0x13; 0x14; 0x15; 0x16; 0x17; 0x18; 0x19; 0x1a; 0x1b; 0x1c; 0x1d; 0x1e; 0x1f].
  revert E. generalize fips_pt. intros pt E.
  match type of E with context [func ?k 16%nat pt] => generalize dependent (func k 16%nat pt) end. intros y1 E.
  match type of E with context [func ?k 32%nat pt] => generalize dependent (func k 32%nat pt) end. intros y2 E.
  match type of E with context [list_eqb ?a _] => generalize dependent a end. intros z1 E. clear func pt.
  destruct y1 as [o1| |]; [|discriminate E|discriminate E]. rewrite bind_Ok in E.
  destruct o1 as [c1|]; [|split; [congruence|intros [H _]; congruence]].
  destruct (list_eqb z1 c1) eqn:E1; cbn [negb] in E.
  2:{ apply list_eqb_false in E1. split; [congruence|]. intros [H _]. exfalso. apply E1. congruence. }
  match type of E with context [list_eqb ?a _] => generalize dependent a end. intros z2 E.
  apply list_eqb_spec in E1. rewrite ?bind_Ok in E.
  destruct y2 as [o2| |]; [|discriminate E|discriminate E]. rewrite ?bind_Ok in E.
  destruct o2 as [c2|]; [|split; [congruence|intros [_ H]; congruence]].
  destruct (list_eqb z2 c2) eqn:E2; cbn [negb] in E.
  2:{ apply list_eqb_false in E2. split; [congruence|]. intros [_ H]. exfalso. apply E2. congruence. }
  apply list_eqb_spec in E2. split; [|congruence]. intros _. subst. split; reflexivity.
Qed.

Lemma feature_eqb_refl f : feature_eqb f f = true. Proof. destruct f; reflexivity. Qed.
Lemma feature_eqb_eq a b : feature_eqb a b = true -> a = b. Proof. destruct a, b; try discriminate; reflexivity. Qed.
(** What is known of a cache. *)
Definition cache_inv (us : list (use * moment)) (c : cpu_cache) : Prop :=
  forall f, fs_present (c f) = true -> at_some us (fun m => mo_det m f = true).
Lemma at_some_app us vs (P : moment -> Prop) : at_some us P -> at_some (us ++ vs) P.
Proof. intros (m & H1 & H2). exists m. rewrite map_app. split; [apply in_or_app; auto|exact H2]. Qed.
Lemma at_some_last us u m (P : moment -> Prop) : P m -> at_some (us ++ [(u, m)]) P.
Proof. intros H. exists m. rewrite map_app. split; [apply in_or_app; right; left; reflexivity|exact H]. Qed.
Lemma cpusupport_inv us u m c f b c' : cache_inv us c \/ cache_inv (us ++ [(u, m)]) c -> cpusupport (mo_det m) c f = (b, c') ->
  cache_inv (us ++ [(u, m)]) c' /\ (b = true -> fs_present (c' f) = true).
Proof.
  intros HC0 E. assert (cache_inv (us ++ [(u, m)]) c) as HC.
  { destruct HC0 as [H|H]; [|exact H]. intros g Hg. apply at_some_app, H, Hg. }
  unfold cpusupport in E. destruct (fs_present (c f)) eqn:EP.
  { injection E as <- <-. auto. }
  destruct (fs_init (c f)). { injection E as <- <-. split; [exact HC|discriminate]. }
  injection E as <- <-. split.
  - intros g Hg. destruct (feature_eqb g f) eqn:EG; [|auto].
    apply feature_eqb_eq in EG. subst g. apply at_some_last. exact Hg.
  - intros Hb. rewrite feature_eqb_refl. exact Hb.
Qed.
Lemma cpusupport_mono det c f b c' g : cpusupport det c f = (b, c') -> fs_present (c g) = true -> fs_present (c' g) = true.
Proof.
  intros E Hg. unfold cpusupport in E. destruct (fs_present (c f)) eqn:EP; [injection E as <- <-; exact Hg|].
  destruct (fs_init (c f)); injection E as <- <-; [exact Hg|].
  destruct (feature_eqb g f) eqn:EG; [|exact Hg]. apply feature_eqb_eq in EG. subst g. congruence.
Qed.
Lemma cpusupport_all_inv us u m fs : forall c b c', cache_inv us c \/ cache_inv (us ++ [(u, m)]) c -> cpusupport_all (mo_det m) c fs = (b, c') ->
  cache_inv (us ++ [(u, m)]) c' /\ (forall g, fs_present (c g) = true -> fs_present (c' g) = true) /\
  (b = true -> Forall (fun f => fs_present (c' f) = true) fs).
Proof.
  induction fs as [|f fs IH]; intros c b c' HC E; cbn [cpusupport_all] in E.
  - injection E as <- <-. split; [|split; [auto|constructor]].
    destruct HC as [H|H]; [|exact H]. intros g Hg. apply at_some_app, H, Hg.
  - destruct (cpusupport (mo_det m) c f) as [b1 c1] eqn:E1.
    pose proof (cpusupport_inv us u m c f b1 c1 HC E1) as [HC1 HB1].
    destruct b1.
    + destruct (IH c1 b c' (or_intror HC1) E) as (HC2 & HM & HB2). split; [exact HC2|]. split.
      * intros g Hg. apply HM, (cpusupport_mono _ _ _ _ _ _ E1 Hg).
      * intros Hb. constructor; [apply HM, HB1; reflexivity|apply HB2, Hb].
    + injection E as <- <-. split; [exact HC1|]. split; [|discriminate].
      intros g Hg. exact (cpusupport_mono _ _ _ _ _ _ E1 Hg).
Qed.

(** The claim about a chosen routine. *)
Definition sha_choice_ok (built : build) (us : list (use * moment)) (h : sha_hw) : Prop :=
  h = HW_SOFTWARE \/
  (Forall (fun f => built f = true /\ at_some us (fun m => mo_det m f = true)) (sha_needs h) /\
   at_some us (fun m => sha_passes (mo_sha m h) (mo_W m) (mo_S m))).
Definition aes_routine (m : moment) (h : aes_hw) : oneshot :=
  match h with AES_SOFTWARE => mo_ssl m | AES_X86_AESNI => mo_x86 m | AES_ARM_AES => mo_arm m end.
Definition aes_choice_ok (built : build) (us : list (use * moment)) (h : aes_hw) : Prop :=
  (built F_aesni = false /\ built F_arm_aes = false /\ h = AES_SOFTWARE) \/
  (Forall (fun f => built f = true /\ at_some us (fun m => mo_det m f = true)) (aes_needs h) /\
   at_some us (fun m => aes_passes (aes_routine m h))).
Definition warning_ok (us : list (use * moment)) (w : hw_warning) : Prop :=
  match w with
  | Warn_sha h => at_some us (fun m => ~ sha_passes (mo_sha m h) (mo_W m) (mo_S m))
  | Warn_aes h => at_some us (fun m => ~ aes_passes (aes_routine m h))
  end.

Ltac red01 := match goal with E : _ = Ok _ |- _ =>
  cbv iota in E; change (0 =? 1) with false in E; change (0 =? 2) with false in E; change (0 =? 0) with true in E;
  change (1 =? 1) with true in E; change (1 =? 2) with false in E; change (1 =? 0) with false in E;
  change (2 =? 1) with false in E; change (2 =? 2) with true in E; change (2 =? 0) with false in E; rewrite ?andb_false_r, ?andb_true_r, ?andb_false_l, ?andb_true_l in E; cbv iota in E end.
Section Steps.
  Context (built : build) (us : list (use * moment)) (u : use) (m : moment).
  Hypothesis HW : scratch_ok m.
  Let us' := us ++ [(u, m)].
  Definition sha_res_ok (r : res (cpu_cache * sha_hw * list hw_warning)) : Prop :=
    forall c h ws, r = Ok (c, h, ws) -> cache_inv us' c /\ sha_choice_ok built us' h /\ Forall (warning_ok us') ws.
  Lemma sha_validate_ok c ws h k : cache_inv us c \/ cache_inv us' c -> Forall (warning_ok us') ws -> h <> HW_SOFTWARE ->
    Forall (fun f => built f = true) (sha_needs h) ->
    (forall c ws, cache_inv us' c -> Forall (warning_ok us') ws -> sha_res_ok (k c ws)) ->
    sha_res_ok (sha_validate (mo_det m) (mo_sha m) (mo_W m) (mo_S m) c ws h (sha_needs h) k).
  Proof.
    intros HC Hws Hh HB HK. unfold sha_validate.
    destruct (cpusupport_all (mo_det m) c (sha_needs h)) as [ok c1] eqn:E1.
    destruct (cpusupport_all_inv us u m (sha_needs h) c ok c1 HC E1) as (HC1 & _ & HB1).
    destruct ok; [|apply HK; assumption].
    intros c2 h2 ws2 E. destruct (hwtest (mo_W m) (mo_S m) (mo_sha m h)) as [t| |] eqn:ET; cbn [bind] in E; try discriminate.
    apply hwtest_spec in ET; [|exact HW]. destruct t.
    - assert (c1 = c2 /\ h = h2 /\ ws = ws2) as (<- & <- & <-) by (repeat split; congruence).
      split; [exact HC1|]. split; [|exact Hws]. right. split.
      + specialize (HB1 eq_refl). rewrite Forall_forall in *. intros f Hf. split; [apply HB, Hf|]. apply HC1, HB1, Hf.
      + apply at_some_last. apply ET. reflexivity.
    - refine (HK c1 _ HC1 _ c2 h2 ws2 E). apply Forall_app. split; [exact Hws|]. constructor; [|constructor].
      apply at_some_last. intros HP. apply ET in HP. discriminate.
  Qed.
  Lemma sha_init_ok c st : cache_inv us c -> (forall h, st = Some h -> sha_choice_ok built us' h) ->
    sha_res_ok (sha_hwaccel_init built (mo_det m) (mo_sha m) (mo_W m) (mo_S m) c st).
  Proof.
    intros HC HS. unfold sha_hwaccel_init. destruct st as [h|].
    - intros c2 h2 ws2 E. assert (c = c2 /\ h = h2 /\ [] = ws2) as (<- & <- & <-) by (repeat split; congruence).
      split; [intros f Hf; apply at_some_app, HC, Hf|]. split; [apply HS; reflexivity|constructor].
    - assert (forall c ws, cache_inv us' c \/ cache_inv us c -> Forall (warning_ok us') ws -> sha_res_ok (Ok (c, HW_SOFTWARE, ws))) as H3.
      { intros c1 ws1 HC1 HW1 c2 h2 ws2 E. assert (c1 = c2 /\ HW_SOFTWARE = h2 /\ ws1 = ws2) as (<- & <- & <-) by (repeat split; congruence).
        split; [destruct HC1 as [H|H]; [exact H|intros f Hf; apply at_some_app, H, Hf]|]. split; [left; reflexivity|exact HW1]. }
      assert (forall c ws, cache_inv us' c \/ cache_inv us c -> Forall (warning_ok us') ws ->
        sha_res_ok (if built F_arm_sha256 then sha_validate (mo_det m) (mo_sha m) (mo_W m) (mo_S m) c ws HW_ARM_SHA256 [F_arm_sha256] (fun c ws => Ok (c, HW_SOFTWARE, ws)) else Ok (c, HW_SOFTWARE, ws))) as H2.
      { intros c1 ws1 HC1 HW1. destruct (built F_arm_sha256) eqn:EB; [|apply H3; assumption].
        apply (sha_validate_ok c1 ws1 HW_ARM_SHA256); [tauto|exact HW1|discriminate|repeat constructor; exact EB|auto]. }
      assert (forall c ws, cache_inv us' c \/ cache_inv us c -> Forall (warning_ok us') ws ->
        sha_res_ok (if built F_sse2 then sha_validate (mo_det m) (mo_sha m) (mo_W m) (mo_S m) c ws HW_X86_SSE2 [F_sse2]
          (fun c ws => if built F_arm_sha256 then sha_validate (mo_det m) (mo_sha m) (mo_W m) (mo_S m) c ws HW_ARM_SHA256 [F_arm_sha256] (fun c ws => Ok (c, HW_SOFTWARE, ws)) else Ok (c, HW_SOFTWARE, ws))
          else if built F_arm_sha256 then sha_validate (mo_det m) (mo_sha m) (mo_W m) (mo_S m) c ws HW_ARM_SHA256 [F_arm_sha256] (fun c ws => Ok (c, HW_SOFTWARE, ws)) else Ok (c, HW_SOFTWARE, ws))) as H1.
      { intros c1 ws1 HC1 HW1. destruct (built F_sse2) eqn:EB; [|apply H2; assumption].
        apply (sha_validate_ok c1 ws1 HW_X86_SSE2); [tauto|exact HW1|discriminate|repeat constructor; exact EB|auto]. }
      cbv zeta. destruct (built F_shani && built F_ssse3) eqn:EB; [|apply H1; auto].
      apply andb_prop in EB. destruct EB as [EB1 EB2].
      apply (sha_validate_ok c [] HW_X86_SHANI); [auto|constructor|discriminate|repeat constructor; assumption|auto].
  Qed.
  Definition aes_res_ok (r : res (cpu_cache * aes_hw * list hw_warning)) : Prop :=
    forall c h ws, r = Ok (c, h, ws) -> cache_inv us' c /\ aes_choice_ok built us' h /\ Forall (warning_ok us') ws.
  Lemma aes_validate_ok c ws h f k : cache_inv us c \/ cache_inv us' c -> Forall (warning_ok us') ws ->
    aes_needs h = [f] -> built f = true ->
    (forall c ws, cache_inv us' c -> Forall (warning_ok us') ws -> aes_res_ok (k c ws)) ->
    aes_res_ok (aes_validate (mo_det m) c ws h f (aes_routine m h) k).
  Proof.
    intros HC Hws Hh HB HK. unfold aes_validate.
    destruct (cpusupport (mo_det m) c f) as [ok c1] eqn:E1.
    destruct (cpusupport_inv us u m c f ok c1 HC E1) as (HC1 & HB1).
    destruct ok; [|apply HK; assumption].
    intros c2 h2 ws2 E. destruct (functest (aes_routine m h)) as [t| |] eqn:ET; cbn [bind] in E; try discriminate.
    apply functest_spec in ET. destruct t.
    - assert (c1 = c2 /\ h = h2 /\ ws = ws2) as (<- & <- & <-) by (repeat split; congruence).
      split; [exact HC1|]. split; [|exact Hws]. right. rewrite Hh. split.
      + repeat constructor; [exact HB|]. apply HC1, HB1. reflexivity.
      + apply at_some_last. apply ET. reflexivity.
    - refine (HK c1 _ HC1 _ c2 h2 ws2 E). apply Forall_app. split; [exact Hws|]. constructor; [|constructor].
      apply at_some_last. intros HP. apply ET in HP. discriminate.
  Qed.
  Lemma aes_init_ok c st : cache_inv us c -> (forall h, st = Some h -> aes_choice_ok built us' h) ->
    aes_res_ok (aes_hwaccel_init built (mo_det m) (mo_x86 m) (mo_arm m) (mo_ssl m) c st).
  Proof.
    intros HC HS. unfold aes_hwaccel_init. destruct (built F_aesni || built F_arm_aes) eqn:EBB; cbn [negb].
    2:{ apply orb_false_elim in EBB. intros c2 h2 ws2 E. assert (c = c2 /\ AES_SOFTWARE = h2 /\ [] = ws2) as (<- & <- & <-) by (repeat split; congruence).
        split; [intros f Hf; apply at_some_app, HC, Hf|]. split; [left; tauto|constructor]. }
    destruct st as [h|].
    - intros c2 h2 ws2 E. assert (c = c2 /\ h = h2 /\ [] = ws2) as (<- & <- & <-) by (repeat split; congruence).
      split; [intros f Hf; apply at_some_app, HC, Hf|]. split; [apply HS; reflexivity|constructor].
    - cbv zeta.
      assert (forall c ws, cache_inv us' c \/ cache_inv us c -> Forall (warning_ok us') ws ->
        aes_res_ok (t <- functest (mo_ssl m) ;; (if t : bool then Ok (c, AES_SOFTWARE, ws) else Abort))) as H3.
      { intros c1 ws1 HC1 HW1 c2 h2 ws2 E. destruct (functest (mo_ssl m)) as [t| |] eqn:ET; cbn [bind] in E; try discriminate.
        destruct t; try discriminate. apply functest_spec in ET.
        assert (c1 = c2 /\ AES_SOFTWARE = h2 /\ ws1 = ws2) as (<- & <- & <-) by (repeat split; congruence).
        split; [destruct HC1 as [H|H]; [exact H|intros f Hf; apply at_some_app, H, Hf]|]. split; [|exact HW1].
        right. split; [constructor|]. apply at_some_last. apply ET. reflexivity. }
      assert (forall c ws, cache_inv us' c \/ cache_inv us c -> Forall (warning_ok us') ws ->
        aes_res_ok (if built F_arm_aes then aes_validate (mo_det m) c ws AES_ARM_AES F_arm_aes (mo_arm m)
           (fun c ws => t <- functest (mo_ssl m) ;; (if t : bool then Ok (c, AES_SOFTWARE, ws) else Abort))
          else t <- functest (mo_ssl m) ;; (if t : bool then Ok (c, AES_SOFTWARE, ws) else Abort))) as H2.
      { intros c1 ws1 HC1 HW1. destruct (built F_arm_aes) eqn:EB; [|apply H3; assumption].
        apply (aes_validate_ok c1 ws1 AES_ARM_AES); [tauto|exact HW1|reflexivity|exact EB|auto]. }
      destruct (built F_aesni) eqn:EB; [|apply H2; auto].
      apply (aes_validate_ok c [] AES_X86_AESNI); [auto|constructor|reflexivity|exact EB|auto].
  Qed.
  Lemma ctr_init_ok c st cst c2 st2 h2 ws2 : cache_inv us c -> (forall h, st = Some h -> aes_choice_ok built us' h) ->
    (forall h, cst = Some h -> aes_choice_ok built us' h /\ (st = Some h \/ (built F_aesni = false /\ built F_arm_aes = false))) ->
    aesctr_hwaccel_init built (mo_det m) (mo_x86 m) (mo_arm m) (mo_ssl m) c st cst = Ok (c2, st2, h2, ws2) ->
    cache_inv us' c2 /\ aes_choice_ok built us' h2 /\ (st2 = Some h2 \/ (st2 = st /\ built F_aesni = false /\ built F_arm_aes = false)) /\
    (forall h, st = Some h -> st2 = Some h) /\ (forall h, cst = Some h -> h2 = h) /\ (forall h, st2 = Some h -> aes_choice_ok built us' h) /\ Forall (warning_ok us') ws2.
  Proof.
    intros HC HS HCS E. unfold aesctr_hwaccel_init in E. destruct (built F_aesni || built F_arm_aes) eqn:EBB; cbn [negb] in E.
    2:{ apply orb_false_elim in EBB. assert (c = c2 /\ st = st2 /\ AES_SOFTWARE = h2 /\ [] = ws2) as (<- & <- & <- & <-) by (repeat split; congruence).
        split; [intros f Hf; apply at_some_app, HC, Hf|]. split; [left; tauto|]. split; [tauto|]. split; [auto|]. split; [|split; [exact HS|constructor]].
        intros h Hh. destruct (HCS h Hh) as [[(_ & _ & ->)|(HF & _)] _]; [reflexivity|].
        destruct h; [reflexivity| |]; cbn in HF; inversion HF as [|? ? [HX _] _]; destruct EBB; congruence. }
    destruct cst as [h|].
    - destruct (HCS h eq_refl) as [HO [HSE|[HX1 HX2]]]; [|rewrite HX1, HX2 in EBB; discriminate].
      assert (c = c2 /\ st = st2 /\ h = h2 /\ [] = ws2) as (<- & <- & <- & <-) by (repeat split; congruence).
      split; [intros f Hf; apply at_some_app, HC, Hf|]. split; [exact HO|]. split; [left; exact HSE|]. split; [auto|]. split; [congruence|]. split; [exact HS|constructor].
    - unfold crypto_aes_can_use_intrinsics in E.
      destruct (aes_hwaccel_init built (mo_det m) (mo_x86 m) (mo_arm m) (mo_ssl m) c st) as [[[c1 h1] ws1]| |] eqn:EI; cbn [bind] in E; try discriminate.
      pose proof (aes_init_ok c st HC HS c1 h1 ws1 EI) as (HC1 & HO1 & HW1).
      assert (forall h, st = Some h -> h1 = h) as HST.
      { intros h ->. unfold aes_hwaccel_init in EI. rewrite EBB in EI. cbn [negb] in EI. congruence. }
      assert (c1 = c2 /\ st2 = Some h1 /\ h2 = h1 /\ ws1 = ws2) as (<- & -> & -> & <-).
      { destruct HO1 as [(HX1 & HX2 & _)|(HF & _)]; [rewrite HX1, HX2 in EBB; discriminate|].
        destruct h1; cbn [aes_needs] in HF; cbv iota in E; rewrite ?andb_false_r, ?andb_true_r in E.
        - red01. repeat split; congruence.
        - inversion HF as [|? ? [HX _] _]; subst. rewrite HX in E. red01. repeat split; congruence.
        - inversion HF as [|? ? [HX _] _]; subst. rewrite HX in E. red01. repeat split; congruence. }
      split; [exact HC1|]. split; [exact HO1|]. split; [left; reflexivity|]. split; [intros h Hh; rewrite (HST h Hh); reflexivity|]. split; [discriminate|].
      split; [intros h Hh; injection Hh as <-; exact HO1|exact HW1].
  Qed.
End Steps.

Definition hw_inv (built : build) (us : list (use * moment)) (s : hw_state) : Prop :=
  cache_inv us (hs_cache s) /\ (forall h, hs_sha s = Some h -> sha_choice_ok built us h) /\
  (forall h, hs_aes s = Some h -> aes_choice_ok built us h) /\
  (forall h, hs_ctr s = Some h -> aes_choice_ok built us h /\ (hs_aes s = Some h \/ (built F_aesni = false /\ built F_arm_aes = false))).
Lemma sha_choice_mono built us vs h : sha_choice_ok built us h -> sha_choice_ok built (us ++ vs) h.
Proof.
  intros [H|[H1 H2]]; [left; exact H|right; split; [|apply at_some_app, H2]].
  eapply Forall_impl; [|exact H1]. cbn. intros f [A B]. split; [exact A|apply at_some_app, B].
Qed.
Lemma aes_choice_mono built us vs h : aes_choice_ok built us h -> aes_choice_ok built (us ++ vs) h.
Proof.
  intros [H|[H1 H2]]; [left; exact H|right; split; [|apply at_some_app, H2]].
  eapply Forall_impl; [|exact H1]. cbn. intros f [A B]. split; [exact A|apply at_some_app, B].
Qed.
Lemma warning_mono us vs w : warning_ok us w -> warning_ok (us ++ vs) w.
Proof. destruct w; apply at_some_app. Qed.
Lemma hw_step_inv built us s u m s' ws : scratch_ok m -> hw_inv built us s -> hw_step built s u m = Ok (s', ws) ->
  hw_inv built (us ++ [(u, m)]) s' /\ Forall (warning_ok (us ++ [(u, m)])) ws /\
  (forall h, hs_sha s = Some h -> hs_sha s' = Some h) /\ (forall h, hs_aes s = Some h -> hs_aes s' = Some h) /\ (forall h, hs_ctr s = Some h -> hs_ctr s' = Some h).
Proof.
  intros HW (HC & HS & HA & HT) E.
  assert (forall h, hs_sha s = Some h -> sha_choice_ok built (us ++ [(u, m)]) h) as HS' by (intros; apply sha_choice_mono, HS; assumption).
  assert (forall h, hs_aes s = Some h -> aes_choice_ok built (us ++ [(u, m)]) h) as HA' by (intros; apply aes_choice_mono, HA; assumption).
  assert (forall h, hs_ctr s = Some h -> aes_choice_ok built (us ++ [(u, m)]) h /\ (hs_aes s = Some h \/ (built F_aesni = false /\ built F_arm_aes = false))) as HT'
    by (intros h Hh; destruct (HT h Hh) as [X1 X2]; split; [apply aes_choice_mono, X1|exact X2]).
  destruct u as [| | |f]; cbn [hw_step] in E.
  - destruct (sha_hwaccel_init built (mo_det m) (mo_sha m) (mo_W m) (mo_S m) (hs_cache s) (hs_sha s)) as [[[c h] ws1]| |] eqn:EI; cbn [bind] in E; try discriminate.
    assert (mk_hs c (Some h) (hs_aes s) (hs_ctr s) = s' /\ ws1 = ws) as [<- <-] by (split; congruence). unfold hw_inv. cbn [hs_cache hs_sha hs_aes hs_ctr].
    assert (forall h0, hs_sha s = Some h0 -> h = h0) as HST by (intros h0 Hh; rewrite Hh in EI; unfold sha_hwaccel_init in EI; congruence).
    pose proof (sha_init_ok built us Use_sha m HW _ _ HC HS' _ _ _ EI) as (X1 & X2 & X3).
    split; [|split; [exact X3|split; [intros h0 Hh; rewrite (HST h0 Hh); reflexivity|auto]]].
    split; [exact X1|]. split; [intros h0 Hh; injection Hh as <-; exact X2|]. split; assumption.
  - destruct (aes_hwaccel_init built (mo_det m) (mo_x86 m) (mo_arm m) (mo_ssl m) (hs_cache s) (hs_aes s)) as [[[c h] ws1]| |] eqn:EI; cbn [bind] in E; try discriminate.
    assert (mk_hs c (hs_sha s) (Some h) (hs_ctr s) = s' /\ ws1 = ws) as [<- <-] by (split; congruence). unfold hw_inv. cbn [hs_cache hs_sha hs_aes hs_ctr].
    pose proof (aes_init_ok built us Use_aes m _ _ HC HA' _ _ _ EI) as (X1 & X2 & X3).
    assert (forall h0, hs_aes s = Some h0 -> h = h0) as HST.
    { intros h0 Hh. pose proof (HA h0 Hh) as HO. rewrite Hh in EI. unfold aes_hwaccel_init in EI.
      destruct (built F_aesni || built F_arm_aes) eqn:EBB; cbn [negb] in EI; [congruence|].
      assert (h = AES_SOFTWARE) as -> by congruence. apply orb_false_elim in EBB.
      destruct HO as [(_ & _ & ->)|(HF & _)]; [reflexivity|]. destruct h0; [reflexivity| |]; cbn in HF; inversion HF as [|? ? [HX _] _]; destruct EBB; congruence. }
    split; [|split; [exact X3|split; [auto|split; [intros h0 Hh; rewrite (HST h0 Hh); reflexivity|auto]]]].
    split; [exact X1|]. split; [exact HS'|]. split; [intros h0 Hh; injection Hh as <-; exact X2|].
    intros h0 Hh. destruct (HT' h0 Hh) as [Y1 [Y2|Y2]]; split; auto. left. rewrite (HST h0 Y2). reflexivity.
  - destruct (aesctr_hwaccel_init built (mo_det m) (mo_x86 m) (mo_arm m) (mo_ssl m) (hs_cache s) (hs_aes s) (hs_ctr s)) as [[[[c a] h] ws1]| |] eqn:EI; cbn [bind] in E; try discriminate.
    assert (mk_hs c (hs_sha s) a (Some h) = s' /\ ws1 = ws) as [<- <-] by (split; congruence). unfold hw_inv. cbn [hs_cache hs_sha hs_aes hs_ctr].
    destruct (ctr_init_ok built us Use_aesctr m _ _ _ _ _ _ _ HC HA' HT' EI) as (X1 & X2 & X3 & X4 & X5 & X6 & X7).
    split; [|split; [exact X7|split; [auto|split; [exact X4|intros h0 Hh; rewrite (X5 h0 Hh); reflexivity]]]].
    split; [exact X1|]. split; [exact HS'|]. split; [exact X6|].
    intros h0 Hh. injection Hh as <-. split; [exact X2|]. destruct X3 as [X3|(_ & X3)]; auto.
  - destruct (cpusupport (mo_det m) (hs_cache s) f) as [b c] eqn:EI.
    assert (mk_hs c (hs_sha s) (hs_aes s) (hs_ctr s) = s' /\ [] = ws) as [<- <-] by (split; congruence). unfold hw_inv. cbn [hs_cache hs_sha hs_aes hs_ctr].
    destruct (cpusupport_inv us (Use_feature f) m (hs_cache s) f b c (or_introl HC) EI) as [X1 _]. auto 10.
Qed.
Lemma hw_run_inv built vs : forall us s s' ws, Forall (fun um => scratch_ok (snd um)) vs -> hw_inv built us s -> hw_run built s vs = Ok (s', ws) ->
  hw_inv built (us ++ vs) s' /\ Forall (warning_ok (us ++ vs)) ws /\
  (forall h, hs_sha s = Some h -> hs_sha s' = Some h) /\ (forall h, hs_aes s = Some h -> hs_aes s' = Some h) /\ (forall h, hs_ctr s = Some h -> hs_ctr s' = Some h).
Proof.
  induction vs as [|[u m] vs IH]; intros us s s' ws HW HI E; cbn [hw_run] in E.
  - injection E as <- <-. rewrite app_nil_r. split; [exact HI|]. split; [constructor|]. auto.
  - inversion HW as [|? ? HW1 HW2]; subst. cbn [snd] in HW1.
    destruct (hw_step built s u m) as [[s1 ws1]| |] eqn:E1; cbn [bind] in E; try discriminate.
    destruct (hw_run built s1 vs) as [[s2 ws2]| |] eqn:E2; cbn [bind] in E; try discriminate.
    injection E as <- <-.
    destruct (hw_step_inv built us s u m s1 ws1 HW1 HI E1) as (HI1 & A & B & C & D).
    destruct (IH (us ++ [(u, m)]) s1 s2 ws2 HW2 HI1 E2) as (HI2 & A2 & B2 & C2 & D2).
    rewrite <- app_assoc in HI2, A2. cbn [app] in HI2, A2.
    split; [exact HI2|]. split; [|auto].
    apply Forall_app. split; [|exact A2]. eapply Forall_impl; [|exact A]. intros w Hw.
    replace (us ++ (u, m) :: vs) with ((us ++ [(u, m)]) ++ vs) by (rewrite <- app_assoc; reflexivity). apply warning_mono, Hw.
Qed.
Lemma hw_inv0 built : hw_inv built [] hs0.
Proof. split; [intros f Hf; discriminate Hf|]. repeat split; cbn; discriminate. Qed.

(** ** C48 *)
(** After any history of uses from program start, on any machine: a SHA-256
    hardware routine is in use only if it was compiled in, every feature it
    needs was reported by the CPU, and it passed its self-test. *)
Theorem C48_sha_selected built us s ws h : Forall (fun um => scratch_ok (snd um)) us ->
  hw_run built hs0 us = Ok (s, ws) -> hs_sha s = Some h -> h <> HW_SOFTWARE ->
  Forall (fun f => built f = true /\ at_some us (fun m => mo_det m f = true)) (sha_needs h) /\
  at_some us (fun m => sha_passes (mo_sha m h) (mo_W m) (mo_S m)).
Proof.
  intros HW E Hh Hn. destruct (hw_run_inv built us [] hs0 s ws HW (hw_inv0 built) E) as ((_ & HS & _) & _).
  destruct (HS h Hh) as [H|H]; [contradiction|exact H].
Qed.
Print Assumptions C48_sha_selected.
(** The same for AES; and OpenSSL is in use only if it passed the test (or no
    hardware support was compiled in, in which case nothing is tested). *)
Theorem C48_aes_selected built us s ws h : Forall (fun um => scratch_ok (snd um)) us ->
  hw_run built hs0 us = Ok (s, ws) -> hs_aes s = Some h \/ hs_ctr s = Some h ->
  (built F_aesni = false /\ built F_arm_aes = false /\ h = AES_SOFTWARE) \/
  (Forall (fun f => built f = true /\ at_some us (fun m => mo_det m f = true)) (aes_needs h) /\
   at_some us (fun m => aes_passes (aes_routine m h))).
Proof.
  intros HW E Hh. destruct (hw_run_inv built us [] hs0 s ws HW (hw_inv0 built) E) as ((_ & _ & HA & HT) & _).
  destruct Hh as [Hh|Hh]; [exact (HA h Hh)|exact (proj1 (HT h Hh))].
Qed.
Print Assumptions C48_aes_selected.
(** The block cipher and the stream code never disagree about the kind of
    expanded key in use (a disagreement would be memory corruption). *)
Theorem C48_aesctr_consistent built us s ws h : Forall (fun um => scratch_ok (snd um)) us ->
  hw_run built hs0 us = Ok (s, ws) -> hs_ctr s = Some h -> built F_aesni = true \/ built F_arm_aes = true -> hs_aes s = Some h.
Proof.
  intros HW E Hh HB. destruct (hw_run_inv built us [] hs0 s ws HW (hw_inv0 built) E) as ((_ & _ & _ & HT) & _).
  destruct (proj2 (HT h Hh)) as [H|[H1 H2]]; [exact H|]. destruct HB; congruence.
Qed.
Print Assumptions C48_aesctr_consistent.
(** Once made, a choice never changes, whatever the machine does later. *)
Theorem C48_stable built us vs s ws s' ws' : Forall (fun um => scratch_ok (snd um)) (us ++ vs) ->
  hw_run built hs0 us = Ok (s, ws) -> hw_run built s vs = Ok (s', ws') ->
  (forall h, hs_sha s = Some h -> hs_sha s' = Some h) /\ (forall h, hs_aes s = Some h -> hs_aes s' = Some h) /\
  (forall h, hs_ctr s = Some h -> hs_ctr s' = Some h).
Proof.
  intros HW E E'. apply Forall_app in HW. destruct HW as [HW1 HW2].
  destruct (hw_run_inv built us [] hs0 s ws HW1 (hw_inv0 built) E) as (HI & _).
  destruct (hw_run_inv built vs us s s' ws' HW2 HI E') as (_ & _ & H). exact H.
Qed.
Print Assumptions C48_stable.
(** A routine is disabled with a warning only if it failed its self-test. *)
Theorem C48_warnings built us s ws : Forall (fun um => scratch_ok (snd um)) us ->
  hw_run built hs0 us = Ok (s, ws) ->
  Forall (fun w => match w with
    | Warn_sha h => at_some us (fun m => ~ sha_passes (mo_sha m h) (mo_W m) (mo_S m))
    | Warn_aes h => at_some us (fun m => ~ aes_passes (aes_routine m h)) end) ws.
Proof. intros HW E. destruct (hw_run_inv built us [] hs0 s ws HW (hw_inv0 built) E) as (_ & H & _). exact H. Qed.
Print Assumptions C48_warnings.

(** On a correct machine (the vendors' semantics of the instructions, OpenSSL
    computing AES, memory for the self-test) nothing is disabled and nothing
    aborts: the first routine compiled in and reported is used. *)
Definition correct_moment (m : moment) : Prop :=
  scratch_ok m /\ (forall h, mo_sha m h = sha_real h) /\
  (exists old, length old = 15%nat /\ mo_x86 m = x86_aesni_oneshot true old) /\
  (exists old, length old = 15%nat /\ mo_arm m = arm_aes_oneshot true old) /\
  mo_ssl m = openssl_oneshot.
Lemma real_sha_test h W S_ : length W = 64%nat -> hwtest W S_ (sha_real h) = Ok true.
Proof.
  intros HW. unfold hwtest. rewrite sw_test by exact HW. rewrite bind_Ok. unfold sha_real.
  assert (SHA256_Transform h initial_state test_block W = Ok (compress H256 (map N.of_nat (seq 0 64)))) as ->.
  { rewrite initial_state_H256, test_block_eq. apply C27_transforms_agree; auto. repeat constructor. }
  rewrite bind_Ok, list_eqb_refl. reflexivity.
Qed.
Lemma aes_passes_test func : aes_passes func -> functest func = Ok true.
Proof.
  unfold aes_passes. rewrite fips197_c1, fips197_c3. intros [H1 H2].
  unfold functest, aes_tests, functest_loop. cbn [t_len t_key t_ptext t_ctext Nat.eqb orb assert_].
  change aes_ptext with fips_pt.
  change (map N.of_nat (seq 0 16)) with [0x00; 0x01; 0x02; 0x03; 0x04; 0x05; 0x06; 0x07; 0x08; 0x09; 0x0a; 0x0b; 0x0c; 0x0d; 0x0e; 0x0f] in H1.
  change (map N.of_nat (seq 0 32)) with [0x00; 0x01; 0x02; 0x03; 0x04; 0x05; 0x06; 0x07; 0x08; 0x09; 0x0a; 0x0b; 0x0c; 0x0d; 0x0e; 0x0f;
             0x10; 0x11; 0x12; 0x13; 0x14; 0x15; 0x16; 0x17; 0x18; 0x19; 0x1a; 0x1b; 0x1c; 0x1d; 0x1e; 0x1f] in H2.
  rewrite !bind_Ok. rewrite H1, bind_Ok, list_eqb_refl. cbn [negb]. rewrite H2, bind_Ok, list_eqb_refl. reflexivity.
Qed.

Lemma x86_test old : length old = 15%nat -> functest (x86_aesni_oneshot true old) = Ok true.
Proof.
  intros HO. apply aes_passes_test. split.
  - destruct (C30_aesni (map N.of_nat (seq 0 16)) old fips_pt (or_introl eq_refl) HO eq_refl) as (hk & E1 & E2).
    unfold x86_aesni_oneshot.
    assert (crypto_aes_key_expand_aesni true old (map N.of_nat (seq 0 16) ++ repeat 0 16) 16 = Ok (Some hk)) as ->.
    { rewrite <- E1. reflexivity. }
    rewrite bind_Ok, E2, bind_Ok. reflexivity.
  - destruct (C30_aesni (map N.of_nat (seq 0 32)) old fips_pt (or_intror eq_refl) HO eq_refl) as (hk & E1 & E2).
    unfold x86_aesni_oneshot. change (length (map N.of_nat (seq 0 32))) with 32%nat in E1. rewrite E1.
    rewrite bind_Ok, E2, bind_Ok. reflexivity.
Qed.
Lemma arm_test old : length old = 15%nat -> functest (arm_aes_oneshot true old) = Ok true.
Proof.
  intros HO. apply aes_passes_test. split.
  - destruct (C30_arm (map N.of_nat (seq 0 16)) old fips_pt (or_introl eq_refl) ltac:(repeat constructor) HO eq_refl) as (hk & E1 & E2).
    unfold arm_aes_oneshot.
    assert (crypto_aes_key_expand_arm true old (map N.of_nat (seq 0 16) ++ repeat 0 16) 16 = Ok (Some hk)) as ->.
    { rewrite <- E1. reflexivity. }
    rewrite bind_Ok, E2, bind_Ok. reflexivity.
  - destruct (C30_arm (map N.of_nat (seq 0 32)) old fips_pt (or_intror eq_refl) ltac:(repeat constructor) HO eq_refl) as (hk & E1 & E2).
    unfold arm_aes_oneshot. change (length (map N.of_nat (seq 0 32))) with 32%nat in E1. rewrite E1.
    rewrite bind_Ok, E2, bind_Ok. reflexivity.
Qed.
Lemma ssl_test : functest openssl_oneshot = Ok true.
Proof. apply aes_passes_test. split; reflexivity. Qed.

(** The routine that ought to be used with features [d]: the first one compiled
    in whose features are all reported. *)
Definition sha_preferred (built d : feature -> bool) : sha_hw :=
  if built F_shani && built F_ssse3 && d F_shani && d F_ssse3 then HW_X86_SHANI
  else if built F_sse2 && d F_sse2 then HW_X86_SSE2
  else if built F_arm_sha256 && d F_arm_sha256 then HW_ARM_SHA256
  else HW_SOFTWARE.
Definition aes_preferred (built d : feature -> bool) : aes_hw :=
  if built F_aesni && d F_aesni then AES_X86_AESNI
  else if built F_arm_aes && d F_arm_aes then AES_ARM_AES
  else AES_SOFTWARE.
(** The cache holds answers of the unchanging detection [d]. *)
Definition cache_of (d : feature -> bool) (c : cpu_cache) : Prop :=
  forall f, (fs_present (c f) = true -> d f = true) /\ (fs_init (c f) = true -> fs_present (c f) = d f).
Lemma cpusupport_of d c f : cache_of d c -> exists c', cpusupport d c f = (d f, c') /\ cache_of d c'.
Proof.
  intros HC. unfold cpusupport. destruct (HC f) as [H1 H2]. destruct (fs_present (c f)) eqn:EP.
  - exists c. rewrite H1 by reflexivity. auto.
  - destruct (fs_init (c f)) eqn:EI.
    + exists c. rewrite <- H2 by reflexivity. auto.
    + eexists. split; [reflexivity|]. intros g. destruct (feature_eqb g f) eqn:EF; [|apply HC].
      assert (g = f) as -> by (destruct g, f; try discriminate EF; reflexivity). cbn [fs_present fs_init]. auto.
Qed.
Lemma sha_init_correct built m d c : correct_moment m -> mo_det m = d -> cache_of d c ->
  exists c', sha_hwaccel_init built (mo_det m) (mo_sha m) (mo_W m) (mo_S m) c None = Ok (c', sha_preferred built d, []) /\ cache_of d c'.
Proof.
  intros (HW & HSH & _) -> HC.
  assert (forall c h fs k, cache_of d c -> exists c', cache_of d c' /\
    sha_validate d (mo_sha m) (mo_W m) (mo_S m) c [] h fs k = if forallb d fs then Ok (c', h, []) else k c' []) as HV.
  { clear c HC. intros c h fs k HC. unfold sha_validate.
    assert (exists c', cpusupport_all d c fs = (forallb d fs, c') /\ cache_of d c') as (c' & -> & HC').
    { clear k h. revert c HC. induction fs as [|f fs IH]; intros c HC; cbn [cpusupport_all forallb]; [exists c; auto|].
      destruct (cpusupport_of d c f HC) as (c1 & -> & HC1). destruct (d f); cbn [andb]; [apply IH, HC1|exists c1; auto]. }
    exists c'. split; [exact HC'|]. destruct (forallb d fs); [|reflexivity].
    rewrite HSH, (real_sha_test h _ _ HW), bind_Ok. reflexivity. }
  unfold sha_hwaccel_init, sha_preferred. cbv zeta.
  assert (forall c, cache_of d c -> exists c', (if built F_arm_sha256 then sha_validate d (mo_sha m) (mo_W m) (mo_S m) c [] HW_ARM_SHA256 [F_arm_sha256] (fun c ws => Ok (c, HW_SOFTWARE, ws)) else Ok (c, HW_SOFTWARE, [])) =
    Ok (c', if built F_arm_sha256 && d F_arm_sha256 then HW_ARM_SHA256 else HW_SOFTWARE, []) /\ cache_of d c') as H1.
  { intros c1 HC1. destruct (built F_arm_sha256); cbn [andb]; [|exists c1; auto].
    edestruct (HV c1 HW_ARM_SHA256 [F_arm_sha256]) as (c2 & HC2 & E2); [exact HC1|]. rewrite E2. cbn [forallb].
    rewrite andb_true_r. destruct (d F_arm_sha256); exists c2; auto. }
  assert (forall c, cache_of d c -> exists c', (if built F_sse2 then sha_validate d (mo_sha m) (mo_W m) (mo_S m) c [] HW_X86_SSE2 [F_sse2]
     (fun c ws => if built F_arm_sha256 then sha_validate d (mo_sha m) (mo_W m) (mo_S m) c ws HW_ARM_SHA256 [F_arm_sha256] (fun c ws => Ok (c, HW_SOFTWARE, ws)) else Ok (c, HW_SOFTWARE, ws))
     else if built F_arm_sha256 then sha_validate d (mo_sha m) (mo_W m) (mo_S m) c [] HW_ARM_SHA256 [F_arm_sha256] (fun c ws => Ok (c, HW_SOFTWARE, ws)) else Ok (c, HW_SOFTWARE, [])) =
    Ok (c', if built F_sse2 && d F_sse2 then HW_X86_SSE2 else if built F_arm_sha256 && d F_arm_sha256 then HW_ARM_SHA256 else HW_SOFTWARE, []) /\ cache_of d c') as H2.
  { intros c1 HC1. destruct (built F_sse2); cbn [andb]; [|apply H1, HC1].
    edestruct (HV c1 HW_X86_SSE2 [F_sse2]) as (c2 & HC2 & E2); [exact HC1|]. rewrite E2. cbn [forallb].
    rewrite andb_true_r. destruct (d F_sse2); [exists c2; auto|apply H1, HC2]. }
  destruct (built F_shani && built F_ssse3); cbn [andb]; [|apply H2, HC].
  edestruct (HV c HW_X86_SHANI [F_shani; F_ssse3]) as (c2 & HC2 & E2); [exact HC|]. rewrite E2. cbn [forallb].
  rewrite andb_true_r. destruct (d F_shani && d F_ssse3); [exists c2; auto|apply H2, HC2].
Qed.
Lemma aes_init_correct built m d c : correct_moment m -> mo_det m = d -> cache_of d c ->
  exists c', aes_hwaccel_init built (mo_det m) (mo_x86 m) (mo_arm m) (mo_ssl m) c None = Ok (c', aes_preferred built d, []) /\ cache_of d c'.
Proof.
  intros (_ & _ & (o1 & L1 & HX) & (o2 & L2 & HA) & HS) -> HC. unfold aes_hwaccel_init, aes_preferred. rewrite HX, HA, HS. cbv zeta.
  destruct (built F_aesni) eqn:B1; cbn [andb orb negb].
  - unfold aes_validate at 1. destruct (cpusupport_of d c F_aesni HC) as (c1 & -> & HC1).
    destruct (d F_aesni).
    + rewrite (x86_test o1 L1), bind_Ok. exists c1. auto.
    + destruct (built F_arm_aes); cbn [andb].
      * unfold aes_validate. destruct (cpusupport_of d c1 F_arm_aes HC1) as (c2 & -> & HC2). destruct (d F_arm_aes).
        -- rewrite (arm_test o2 L2), bind_Ok. exists c2. auto.
        -- rewrite ssl_test, bind_Ok. exists c2. auto.
      * rewrite ssl_test, bind_Ok. exists c1. auto.
  - destruct (built F_arm_aes); cbn [andb negb].
    + unfold aes_validate. destruct (cpusupport_of d c F_arm_aes HC) as (c2 & -> & HC2). destruct (d F_arm_aes).
      * rewrite (arm_test o2 L2), bind_Ok. exists c2. auto.
      * rewrite ssl_test, bind_Ok. exists c2. auto.
    + exists c. auto.
Qed.
Definition correct_state (built d : feature -> bool) (s : hw_state) : Prop :=
  cache_of d (hs_cache s) /\ (forall h, hs_sha s = Some h -> h = sha_preferred built d) /\
  (forall h, hs_aes s = Some h -> h = aes_preferred built d) /\ (forall h, hs_ctr s = Some h -> h = aes_preferred built d).
Lemma aes_init_correct' built m d c st : correct_moment m -> mo_det m = d -> cache_of d c ->
  (forall h, st = Some h -> h = aes_preferred built d) ->
  exists c', aes_hwaccel_init built (mo_det m) (mo_x86 m) (mo_arm m) (mo_ssl m) c st = Ok (c', aes_preferred built d, []) /\ cache_of d c'.
Proof.
  intros HM HD HC HS. destruct st as [h|]; [|apply aes_init_correct; assumption].
  unfold aes_hwaccel_init. rewrite (HS h eq_refl). unfold aes_preferred.
  destruct (built F_aesni), (built F_arm_aes); cbn [orb negb andb]; exists c; auto.
Qed.
Lemma hw_step_correct built d s u m : correct_moment m -> mo_det m = d -> correct_state built d s ->
  exists s', hw_step built s u m = Ok (s', []) /\ correct_state built d s' /\ (u = Use_sha -> hs_sha s' = Some (sha_preferred built d)) /\
    (u = Use_aes -> hs_aes s' = Some (aes_preferred built d)) /\ (u = Use_aesctr -> hs_ctr s' = Some (aes_preferred built d)).
Proof.
  intros HM HD (HC & HS & HA & HT). destruct u as [| | |f]; cbn [hw_step].
  - assert (exists c', sha_hwaccel_init built (mo_det m) (mo_sha m) (mo_W m) (mo_S m) (hs_cache s) (hs_sha s) = Ok (c', sha_preferred built d, []) /\ cache_of d c') as (c' & -> & HC').
    { destruct (hs_sha s) as [h|]; [|apply sha_init_correct; assumption]. exists (hs_cache s). split; [|exact HC]. unfold sha_hwaccel_init. rewrite (HS h eq_refl). reflexivity. }
    rewrite bind_Ok. eexists. split; [reflexivity|]. split; [|repeat split; try discriminate].
    split; [exact HC'|]. split; [intros h Hh; injection Hh as <-; reflexivity|auto].
  - destruct (aes_init_correct' built m d (hs_cache s) (hs_aes s) HM HD HC HA) as (c' & -> & HC').
    rewrite bind_Ok. eexists. split; [reflexivity|]. split; [|repeat split; try discriminate].
    split; [exact HC'|]. split; [exact HS|]. split; [intros h Hh; injection Hh as <-; reflexivity|exact HT].
  - unfold aesctr_hwaccel_init. destruct (built F_aesni || built F_arm_aes) eqn:EB; cbn [negb].
    2:{ rewrite bind_Ok. apply orb_false_elim in EB. destruct EB as [B1 B2].
        assert (aes_preferred built d = AES_SOFTWARE) as EP by (unfold aes_preferred; rewrite B1, B2; reflexivity).
        eexists. split; [reflexivity|]. cbn [hs_ctr]. split; [|repeat split; try discriminate; rewrite EP; reflexivity].
        split; [exact HC|]. split; [exact HS|]. split; [exact HA|]. intros h Hh. cbn [hs_ctr] in Hh. congruence. }
    destruct (hs_ctr s) as [h|] eqn:EC.
    + rewrite bind_Ok. eexists. split; [reflexivity|]. cbn [hs_ctr]. rewrite (HT h eq_refl).
      split; [|repeat split; discriminate]. split; [exact HC|]. split; [exact HS|]. split; [exact HA|]. intros h' Hh. cbn [hs_ctr] in Hh. congruence.
    + unfold crypto_aes_can_use_intrinsics. destruct (aes_init_correct' built m d (hs_cache s) (hs_aes s) HM HD HC HA) as (c' & -> & HC').
      rewrite bind_Ok. unfold correct_state.
      assert (exists h, h = aes_preferred built d /\ (h = AES_X86_AESNI -> built F_aesni = true) /\ (h = AES_ARM_AES -> built F_arm_aes = true)) as (h & <- & X1 & X2).
      { eexists. split; [reflexivity|]. unfold aes_preferred. destruct (built F_aesni), (built F_arm_aes), (d F_aesni), (d F_arm_aes); cbn [andb]; split; congruence. }
      assert (forall r : res (hw_state * list hw_warning), r = Ok (mk_hs c' (hs_sha s) (Some h) (Some h), []) ->
        (forall h', hs_sha s = Some h' -> h' = sha_preferred built d) -> exists s', r = Ok (s', []) /\ 
        (cache_of d (hs_cache s') /\ (forall h0, hs_sha s' = Some h0 -> h0 = sha_preferred built d) /\ (forall h0, hs_aes s' = Some h0 -> h0 = h) /\ (forall h0, hs_ctr s' = Some h0 -> h0 = h)) /\
        (Use_aesctr = Use_sha -> hs_sha s' = Some (sha_preferred built d)) /\ (Use_aesctr = Use_aes -> hs_aes s' = Some h) /\ (Use_aesctr = Use_aesctr -> hs_ctr s' = Some h)) as HF.
      { intros r -> _. eexists. split; [reflexivity|]. cbn [hs_cache hs_sha hs_aes hs_ctr]. split; [|repeat split; discriminate].
        split; [exact HC'|]. split; [exact HS|]. split; intros h0 Hh; congruence. }
      apply HF; [|exact HS]. destruct h; rewrite ?andb_false_r, ?andb_true_r.
      * reflexivity.
      * rewrite (X1 eq_refl). reflexivity.
      * rewrite (X2 eq_refl). reflexivity.
  - destruct (cpusupport_of d (hs_cache s) f HC) as (c' & EC & HC'). rewrite HD, EC. eexists. split; [reflexivity|]. split; [|repeat split; discriminate].
    repeat split; try assumption; apply HC'.
Qed.
Definition mono_of (s s1 : hw_state) : Prop :=
  (hs_sha s <> None -> hs_sha s1 <> None) /\ (hs_aes s <> None -> hs_aes s1 <> None) /\ (hs_ctr s <> None -> hs_ctr s1 <> None).
Lemma step_mono built (d : feature -> bool) s u m s1 : correct_state built d s -> correct_state built d s1 -> correct_moment m -> mo_det m = d ->
  hw_step built s u m = Ok (s1, []) -> mono_of s s1.
Proof.
  intros _ _ _ _ E. destruct u as [| | |f]; cbn [hw_step] in E.
  - destruct (sha_hwaccel_init built (mo_det m) (mo_sha m) (mo_W m) (mo_S m) (hs_cache s) (hs_sha s)) as [[[c h] ws1]| |]; cbn [bind] in E; try discriminate E.
    injection E as <- _. repeat split; cbn; intros H; [discriminate|exact H|exact H].
  - destruct (aes_hwaccel_init built (mo_det m) (mo_x86 m) (mo_arm m) (mo_ssl m) (hs_cache s) (hs_aes s)) as [[[c h] ws1]| |]; cbn [bind] in E; try discriminate E.
    injection E as <- _. repeat split; cbn; intros H; [exact H|discriminate|exact H].
  - unfold aesctr_hwaccel_init in E. destruct (negb (built F_aesni || built F_arm_aes)).
    { rewrite bind_Ok in E. injection E as <-. repeat split; cbn; intros H; [exact H|exact H|discriminate]. }
    destruct (hs_ctr s) as [h|] eqn:EC.
    { rewrite bind_Ok in E. injection E as <-. repeat split; cbn; intros H; [exact H|exact H|discriminate]. }
    destruct (crypto_aes_can_use_intrinsics built (mo_det m) (mo_x86 m) (mo_arm m) (mo_ssl m) (hs_cache s) (hs_aes s)) as [[[[c h] ws1] r]| |]; cbn [bind] in E; try discriminate E.
    destruct ((r =? 1) && built F_aesni); [|destruct ((r =? 2) && built F_arm_aes); [|destruct (r =? 0)]]; cbn [bind] in E; try discriminate E;
      injection E as <- _; repeat split; cbn; intros H; try exact H; discriminate.
  - destruct (cpusupport (mo_det m) (hs_cache s) f) as [b c]. injection E as <-. repeat split; cbn; auto.
Qed.
(** On a correct machine whose detection answers [d] throughout, every history
    of uses goes through without a warning or an abort, and the routine in use
    after the first use is the preferred one. *)
Theorem C48_correct_machine built d us : Forall (fun um => correct_moment (snd um) /\ mo_det (snd um) = d) us ->
  exists s, hw_run built hs0 us = Ok (s, []) /\
    (In Use_sha (map fst us) -> hs_sha s = Some (sha_preferred built d)) /\
    (In Use_aes (map fst us) -> hs_aes s = Some (aes_preferred built d)) /\
    (In Use_aesctr (map fst us) -> hs_ctr s = Some (aes_preferred built d)).
Proof.
  intros HU.
  assert (forall us s, Forall (fun um => correct_moment (snd um) /\ mo_det (snd um) = d) us -> correct_state built d s ->
    exists s', hw_run built s us = Ok (s', []) /\ correct_state built d s' /\
      ((In Use_sha (map fst us) \/ hs_sha s <> None) -> hs_sha s' = Some (sha_preferred built d)) /\
      ((In Use_aes (map fst us) \/ hs_aes s <> None) -> hs_aes s' = Some (aes_preferred built d)) /\
      ((In Use_aesctr (map fst us) \/ hs_ctr s <> None) -> hs_ctr s' = Some (aes_preferred built d))) as HR.
  { clear us HU. induction us as [|[u m] us IH]; intros s HU HC; cbn [hw_run map fst].
    - exists s. split; [reflexivity|]. split; [exact HC|]. destruct HC as (_ & HS & HA & HT).
      repeat split; intros [[]|HN].
      + destruct (hs_sha s) as [h|]; [rewrite (HS h eq_refl); reflexivity|contradiction].
      + destruct (hs_aes s) as [h|]; [rewrite (HA h eq_refl); reflexivity|contradiction].
      + destruct (hs_ctr s) as [h|]; [rewrite (HT h eq_refl); reflexivity|contradiction].
    - inversion HU as [|? ? [HM HD] HU']; subst. cbn [snd] in *.
      destruct (hw_step_correct built (mo_det m) s u m HM eq_refl HC) as (s1 & E1 & HC1 & X1 & X2 & X3).
      rewrite E1, bind_Ok. destruct (IH s1 HU' HC1) as (s2 & E2 & HC2 & Y1 & Y2 & Y3). rewrite E2, bind_Ok. exists s2.
      assert (mono_of s s1) as (M1 & M2 & M3).
      { apply (step_mono built (mo_det m) s u m s1 HC HC1 HM eq_refl E1). }
      split; [reflexivity|]. split; [exact HC2|].
      split; [|split]; intros [[HI|HI]|HN].
      + apply Y1. right. rewrite (X1 HI). discriminate.
      + apply Y1. left. exact HI.
      + apply Y1. right. apply M1, HN.
      + apply Y2. right. rewrite (X2 HI). discriminate.
      + apply Y2. left. exact HI.
      + apply Y2. right. apply M2, HN.
      + apply Y3. right. rewrite (X3 HI). discriminate.
      + apply Y3. left. exact HI.
      + apply Y3. right. apply M3, HN. }
  destruct (HR us hs0 HU) as (s & E & _ & Z1 & Z2 & Z3).
  { split; [intros f; cbn; split; discriminate|]. repeat split; cbn; discriminate. }
  exists s. split; [exact E|]. repeat split; intros HI; [apply Z1|apply Z2|apply Z3]; left; exact HI.
Qed.
Print Assumptions C48_correct_machine.

(** Detection on x86: a feature is reported exactly when CPUID works, has the
    leaf, and the architectural bit is set; once answered, the answer is kept
    whatever the CPU says later. *)
Theorem C48_detection c f : detect true c f = true <->
  match f with
  | F_arm_aes => c_arm_aes c = true
  | F_arm_sha256 => c_arm_sha2 c = true
  | F_shani => exists m, id_max (c_id c) = Some m /\ 7 <= m /\ N.testbit (id_7 (c_id c)) 29 = true
  | _ => exists m ecx edx, id_max (c_id c) = Some m /\ 1 <= m /\ id_1 (c_id c) = Some (ecx, edx) /\
      match f with F_aesni => N.testbit ecx 25 | F_rdrand => N.testbit ecx 30 | F_ssse3 => N.testbit ecx 9 | _ => N.testbit edx 26 end = true
  end.
Proof.
  assert (forall x b, negb (N.land x (N.shiftl 1 b) =? 0) = N.testbit x b) as HB.
  { intros x b. rewrite N.shiftl_1_l. destruct (N.testbit x b) eqn:EB.
    - apply Bool.negb_true_iff, N.eqb_neq. intros H0. assert (N.testbit (N.land x (2 ^ b)) b = false) as HF by (rewrite H0; apply N.bits_0).
      rewrite N.land_spec, EB, N.pow2_bits_true in HF. discriminate.
    - apply Bool.negb_false_iff, N.eqb_eq. apply N.bits_inj_0. intros n. rewrite N.land_spec.
      destruct (N.eq_dec b n) as [<-|HN]; [rewrite EB; reflexivity|rewrite N.pow2_bits_false by exact HN; apply andb_false_r]. }
  assert (forall pick b, detect_leaf1 (c_id c) pick b = true <-> exists m ecx edx, id_max (c_id c) = Some m /\ 1 <= m /\ id_1 (c_id c) = Some (ecx, edx) /\ N.testbit (pick (ecx, edx)) b = true) as H1.
  { intros pick b. unfold detect_leaf1. destruct (id_max (c_id c)) as [m|].
    2:{ split; [discriminate|intros (? & ? & ? & ? & _); discriminate]. }
    destruct (m <? 1) eqn:EM.
    - split; [discriminate|]. apply N.ltb_lt in EM. intros (m' & ? & ? & X & Y & _). injection X as <-. lia.
    - apply N.ltb_ge in EM. destruct (id_1 (c_id c)) as [[ecx edx]|].
      + rewrite HB. split; [intros H; exists m, ecx, edx; auto|]. intros (? & ? & ? & _ & _ & X & H). injection X as <- <-. exact H.
      + split; [discriminate|]. intros (? & ? & ? & _ & _ & X & _). discriminate. }
  destruct f; cbn [detect andb]; rewrite ?H1; try reflexivity.
  unfold detect_leaf7. destruct (id_max (c_id c)) as [m|].
  2:{ split; [discriminate|intros (? & ? & _); discriminate]. }
  destruct (m <? 7) eqn:EM.
  - split; [discriminate|]. apply N.ltb_lt in EM. intros (m' & X & Y & _). injection X as <-. lia.
  - apply N.ltb_ge in EM. rewrite HB. split; [intros H; exists m; auto|]. intros (? & _ & _ & H). exact H.
Qed.
Print Assumptions C48_detection.
Theorem C48_detection_cached d1 d2 c f b c1 : cpusupport d1 c f = (b, c1) -> cpusupport d2 c1 f = (b, c1).
Proof.
  unfold cpusupport. destruct (fs_present (c f)) eqn:EP.
  - intros E. injection E as <- <-. rewrite EP. reflexivity.
  - destruct (fs_init (c f)) eqn:EI; intros E; injection E as <- <-.
    + rewrite EP, EI. reflexivity.
    + assert (feature_eqb f f = true) as -> by (destruct f; reflexivity). cbn [fs_present fs_init]. destruct (d1 f); reflexivity.
Qed.
Print Assumptions C48_detection_cached.
(** A machine whose SSE2 unit is broken: a warning, and software is used. *)
Example C48_hyps : exists s, hw_run (fun f => feature_eqb f F_sse2) hs0
  [(Use_sha, mk_moment (fun _ => true) (fun _ _ _ _ _ => Ok (repeat 0 8)) (repeat 0 64) [] openssl_oneshot openssl_oneshot openssl_oneshot)]
  = Ok (s, [Warn_sha HW_X86_SSE2]) /\ hs_sha s = Some HW_SOFTWARE.
Proof. eexists. split; [vm_compute; reflexivity|reflexivity]. Qed.
Example C48_correct_hyps : correct_moment (mk_moment (fun _ => true) sha_real (repeat 0 64) []
  (x86_aesni_oneshot true (repeat [] 15)) (arm_aes_oneshot true (repeat [] 15)) openssl_oneshot).
Proof. repeat split; exists (repeat [] 15); split; reflexivity. Qed.

(** ** C49 *)
(** The pointer is a multiple of the alignment, is the first such address in
    the buffer, and the declared number of elements fits between it and the end
    of the buffer.  (Any alignment, not only powers of two.) *)
Theorem C49_align_ptr arr num size al : 0 < al ->
  let q := align_ptr arr al in
  (al | q) /\ arr <= q /\ q + num * size <= arr + align_buf_size num size al /\
  (forall a, arr <= a -> (al | a) -> q <= a).
Proof.
  intros HA. cbv zeta. unfold align_ptr, align_buf_size.
  pose proof (N.mod_upper_bound arr al ltac:(lia)) as HM.
  pose proof (N.div_mod arr al ltac:(lia)) as HD.
  set (o := arr mod al) in *. set (k := arr / al) in *.
  destruct (N.eq_dec o 0) as [E|E].
  - rewrite E, N.sub_0_r, N.mod_same by lia. rewrite E in HD.
    split; [exists k; lia|]. repeat split; try lia. 
  - rewrite (N.mod_small (al - o)) by lia. split; [exists (k + 1); nia|]. repeat split; try lia.
    intros a Ha [j Hj]. assert (k < j) by nia. nia.
Qed.
Print Assumptions C49_align_ptr.
(** The 15 round keys of 16 bytes: 16-byte aligned, inside the structure. *)
Theorem C49_round_keys arr i : i < 15 ->
  let q := align_ptr arr 16 in (q + 16 * i) mod 16 = 0 /\ arr <= q + 16 * i /\ q + 16 * i + 16 <= arr + align_buf_size 15 16 16.
Proof.
  intros Hi. cbv zeta. destruct (C49_align_ptr arr 15 16 16 ltac:(lia)) as ([k Hk] & H1 & H2 & _).
  split; [|lia]. rewrite Hk. replace (k * 16 + 16 * i) with ((k + i) * 16) by lia. apply N.mod_mul. lia.
Qed.
Print Assumptions C49_round_keys.
(** The 64-byte alignment of the scrypt work areas. *)
Theorem C49_align64 w p n : 6 <= w -> p + align64_size n < 2 ^ w ->
  let q := align64 w p in
  (64 | q) /\ p <= q /\ q + n <= p + align64_size n /\ (forall a, p <= a -> (64 | a) -> q <= a).
Proof.
  unfold align64_size. intros Hw Hp. cbv zeta.
  assert (2 ^ w = 64 * 2 ^ (w - 6)) as HW by (change 64 with (2 ^ 6); rewrite <- N.pow_add_r; f_equal; lia).
  assert (0 < 2 ^ (w - 6)) as HW0 by (apply N.neq_0_lt_0, N.pow_nonzero; lia).
  assert (align64 w p = 64 * ((p + 63) mod 2 ^ w / 64)) as EQ.
  { unfold align64. set (x := (p + 63) mod 2 ^ w).
    assert (x < 2 ^ w) as Hx by (apply N.mod_upper_bound; lia).
    apply N.bits_inj. intros i. rewrite N.land_spec.
    replace (2 ^ w - 1 - 63) with (N.shiftl (N.ones (w - 6)) 6) by (rewrite N.shiftl_mul_pow2, N.ones_equiv; change (2 ^ 6) with 64; lia).
    replace (64 * (x / 64)) with (N.shiftl (N.shiftr x 6) 6) by (rewrite N.shiftl_mul_pow2, N.shiftr_div_pow2; change (2 ^ 6) with 64; lia).
    destruct (N.lt_ge_cases i 6) as [Hi|Hi].
    - rewrite !N.shiftl_spec_low by exact Hi. apply andb_false_r.
    - rewrite !N.shiftl_spec_high' by exact Hi. rewrite N.shiftr_spec'. replace (i - 6 + 6) with i by lia.
      destruct (N.lt_ge_cases i w) as [Hiw|Hiw].
      + rewrite N.ones_spec_low by lia. apply andb_true_r.
      + rewrite N.ones_spec_high by lia. rewrite andb_false_r. symmetry.
        rewrite <- (N.mod_small x (2 ^ w)) by exact Hx. apply N.mod_pow2_bits_high. exact Hiw. }
  rewrite EQ. rewrite N.mod_small by lia. pose proof (N.div_mod (p + 63) 64 ltac:(lia)). pose proof (N.mod_upper_bound (p + 63) 64 ltac:(lia)).
    set (k := (p + 63) / 64) in *. split; [exists k; lia|]. repeat split; try lia.
    intros a Ha [j Hj]. assert (k < j + 1) by nia. nia.
Qed.
Print Assumptions C49_align64.

Example C49_hyps : align_ptr 1003 16 = 1008 /\ align64 64 1003 = 1024 /\ 1003 + align64_size 100 < 2 ^ 64.
Proof. vm_compute. auto. Qed.
Definition Prop_hwaccel_all := (C48_sha_selected, C48_aes_selected, C48_aesctr_consistent, C48_stable, C48_warnings, C48_correct_machine,
  C48_detection, C48_detection_cached, C49_align_ptr, C49_round_keys, C49_align64).
Print Assumptions Prop_hwaccel_all.
