(** C39: the command line. *)
From Coq Require Import String.
From Flocq Require Import IEEE754.BinarySingleNaN.
From Verif Require Import Base SpecAscii M_machine M_double M_smix M_stdio M_memlimit M_cpuperf M_strto M_parsenum M_humansize M_params M_scryptenc
  M_getopt M_readpass M_print_error M_main SpecNumber SpecText SpecPass SpecGetopt SpecCLI P_scrypt_ref P_scryptenc Prop_getopt Prop_parsenum Prop_text Prop_readpass.
Local Open Scope list_scope.

(** ** The program in terms of settings *)
Definition settings_of (v : ovars) : settings :=
  mk_set (v_force v) (v_verbose v) (if is_unset (v_entry v) then None else Some (v_entry v, v_arg v))
    (l_maxmem (x_lim (v_P v))) (l_maxmemfrac (x_lim (v_P v))) (l_maxtime (x_lim (v_P v))) (x_logN (v_P v)) (x_r (v_P v)) (x_p (v_P v)).
Definition params_of (s : settings) : xparams := mk_xp (mk_limits (s_maxmem s) (s_maxmemfrac s) (s_maxtime s)) (s_logN s) (s_r s) (s_p s).
Definition method_of (s : settings) : entry * bytes := match s_method s with Some x => x | None => (PASSPHRASE_TTY_STDIN, []) end.
Inductive mode := Enc | Dec | Info.
Definition mode_word (m : mode) : bytes := match m with Enc => str "enc" | Dec => str "dec" | Info => str "info" end.
Definition is_enc (m : mode) : bool := match m with Enc => true | _ => false end.
(** The operation requested. *)
Definition operation (W : world) (m : mode) (s : settings) (i o : option bytes) : res presult :=
  let enc_dec dec := scrypt_mode_enc_dec W (params_of s) (fst (method_of s)) (snd (method_of s)) dec (s_verbose s) (s_force s) i o in
  match m with Enc => enc_dec false | Dec => enc_dec true | Info => scrypt_mode_info W i end.
Definition is_message (e : pevent) : Prop := match e with E_warn _ | E_usage => True | _ => False end.
(** Nothing was done but complaining. *)
Definition rejected (W : world) (r : res presult) : Prop :=
  exists evs, r = Ok (mk_pr 1 evs (w_stdout W) None (w_heap W)) /\ evs <> [] /\ Forall is_message evs.

(** ** Proofs *)
Section Proofs.
  Context (W : world).
  Notation strtod := (w_strtod W).
  Notation size_max := (SIZE_MAX (m_szb (w_M W))).
  Definition event_ok (e : event) : Prop :=
    match e with Flag n => In (n, false) scrypt_options | Arg n _ => In (n, true) scrypt_options | _ => True end.
  Lemma float_spec a hi x : PARSENUM_float strtod a d0 hi = (x, 0) <-> float strtod a hi x.
  Proof.
    rewrite C37_float. unfold float. split.
    - intros (n & e & H1 & H2 & H3 & H4 & H5 & H6). exists n. repeat split; try assumption.
      + destruct e as [e|]; cbn [errno_of] in H2; subst; auto.
      + intros ->. cbn in H4. congruence.
    - intros (n & H1 & H2 & H3 & H5 & H6). assert (n <> 0%nat) by (destruct a; [congruence|cbn in H2; lia]).
      destruct H1 as [H1|H1]; [exists n, None|exists n, (Some 0)]; repeat split; assumption.
  Qed.
  Lemma natural_spec a hi x : 1 <= hi -> hi < 2 ^ 32 -> PARSENUM_unsigned 32 a 1 (Z.of_N hi) 0 = (x, 0) <-> natural a 1 hi x.
  Proof.
    intros H1 H2. assert (hi < 2 ^ 64) by (change (2 ^ 32) with 4294967296 in H2; change (2 ^ 64) with 18446744073709551616; lia).
    unfold natural. rewrite C37_unsigned by lia. split.
    - intros (neg & v & A & B & C & D & E). exists neg, v. subst x. repeat split; try assumption; lia.
    - intros (neg & v & A & B & C & D). exists neg, v. subst x. repeat split; try assumption; lia.
  Qed.
  Lemma pair_of {A B} (p : A * B) : exists a b, p = (a, b). Proof. destruct p; eauto. Qed.
  (** One option. *)
  Lemma do_option_spec v e : event_ok e ->
    match do_option W v (observe true e) with
    | inl v' => forall s', effect strtod size_max (settings_of v) e s' <-> s' = settings_of v'
    | inr evs => evs <> [] /\ Forall is_message evs /\ forall s', ~ effect strtod size_max (settings_of v) e s'
    end.
  Proof.
    assert (forall P : Prop, forall evs s' : Prop, True) as _ by auto.
    destruct v as [f vb en ar [[M fr t] l r p]].
    destruct e as [n|n a|n|n|n]; cbn [event_ok observe].
    - intros H. unfold scrypt_options in H. repeat (destruct H as [H|H]; [try discriminate H; injection H as <-|]); [| | |destruct H].
      + cbn. intros s'. split; [intros E; inversion E; subst; reflexivity|intros ->; constructor].
      + cbn. intros s'. split; [intros E; inversion E; subst; reflexivity|intros ->; constructor].
      + cbn. destruct en; cbn; [intros s'; split; [intros E; inversion E; subst; reflexivity|intros ->; constructor]|..];
        (split; [discriminate|]; split; [repeat constructor|]; intros s' E; inversion E).
    - intros H. unfold scrypt_options in H. repeat (destruct H as [H|H]; [try discriminate H; injection H as <-|]); [..|destruct H];
      unfold do_option; cbn [o_label o_ch o_arg v_P x_lim x_logN x_r x_p v_force v_verbose v_entry v_arg l_maxmem l_maxmemfrac l_maxtime];
      repeat match goal with |- context [list_eqb (str ?a) (str ?b)] =>
        let q := eval vm_compute in (list_eqb (str a) (str b)) in change (list_eqb (str a) (str b)) with q; cbv iota end.
      + (* logN *) unfold opt_int. destruct (pair_of (PARSENUM_signed 32 a 10 40 0)) as (x & err & HE). rewrite HE.
        assert (forall y, PARSENUM_signed 32 a 10 40 0 = (y, 0) <-> exists neg v, integer 0 a neg v /\ (10 <= signed neg v <= 40)%Z /\ y = signed neg v) as HS.
        { intros y. apply C37_signed; unfold fits_type; lia. }
        destruct (N.eqb_spec err 0) as [->|HN].
        * intros s'. split.
          -- intros E. inversion E; subst. assert (PARSENUM_signed 32 a 10 40 0 = (signed neg n, 0)) as HX by (apply HS; eauto). rewrite HE in HX.
             injection HX as ->. reflexivity.
          -- intros ->. apply HS in HE. destruct HE as (neg & n & A & B & ->). apply eff_logN; assumption.
        * unfold bad_number. split; [discriminate|]. split; [repeat constructor|]. intros s' E. inversion E; subst.
          assert (PARSENUM_signed 32 a 10 40 0 = (signed neg n, 0)) as HX by (apply HS; eauto). congruence.
      + (* M *) destruct (humansize_parse (w_maxmem64 W) a) as [x|] eqn:EH.
        * apply C36_humansize_parse in EH. assert (forall y, human_grammar a y -> y < 2 ^ 64 -> y = x) as HU.
          { intros y A B. destruct EH as [C D]. assert (humansize_parse 0 a = Some y) as E1 by (apply C36_humansize_parse; auto).
            assert (humansize_parse 0 a = Some x) as E2 by (apply C36_humansize_parse; auto). congruence. }
          destruct (N.ltb_spec size_max x) as [HL|HL].
          -- split; [discriminate|]. split; [repeat constructor|]. intros s' E. inversion E; subst. rewrite (HU x0) in * by assumption. lia.
          -- intros s'. split; [intros E; inversion E; subst; rewrite (HU x0) by assumption; reflexivity|]. intros ->. apply eff_M; tauto.
        * split; [discriminate|]. split; [repeat constructor|]. intros s' E. inversion E; subst.
          assert (humansize_parse (w_maxmem64 W) a = Some x) as E1 by (apply C36_humansize_parse; auto). congruence.
      + (* m *) unfold opt_double. destruct (pair_of (PARSENUM_float strtod a d0 d0_5)) as (x & err & HE). rewrite HE.
        pose proof (float_spec a d0_5) as HS. destruct (N.eqb_spec err 0) as [->|HN].
        * intros s'. split.
          -- intros E. inversion E; subst. match goal with H : float _ _ _ _ |- _ => apply HS in H; rewrite HE in H; injection H as -> end. reflexivity.
          -- intros ->. apply eff_m, HS, HE.
        * split; [discriminate|]. split; [repeat constructor|]. intros s' E. inversion E; subst.
          match goal with H : float _ _ _ _ |- _ => apply HS in H; congruence end.
      + (* p *) unfold opt_u32. destruct (pair_of (PARSENUM_unsigned 32 a 1 2048 0)) as (x & err & HE). rewrite HE.
        pose proof (fun y => natural_spec a 2048 y ltac:(lia) ltac:(lia)) as HS. change (Z.of_N 2048) with 2048%Z in HS.
        destruct (N.eqb_spec err 0) as [->|HN].
        * intros s'. split.
          -- intros E. inversion E; subst. match goal with H : natural _ _ _ _ |- _ => apply HS in H; rewrite HE in H; injection H as -> end. reflexivity.
          -- intros ->. apply eff_p, HS, HE.
        * unfold bad_number. split; [discriminate|]. split; [repeat constructor|]. intros s' E. inversion E; subst.
          match goal with H : natural _ _ _ _ |- _ => apply HS in H; congruence end.
      + (* passphrase *) destruct en; cbn [is_unset negb]; unfold only_one;
          [|split; [discriminate|]; split; [repeat constructor|]; intros s' E; inversion E..].
        destruct (passphrase_entry_parse a) as [[e x]|] eqn:EP.
        * pose proof EP as EP2. apply C40_parse in EP2.
          assert (settings_of (mk_ov f vb e x (mk_xp (mk_limits M fr t) l r p)) = mk_set f vb (Some (e, x)) M fr t l r p) as -> by (destruct EP2; reflexivity).
          intros s'. split; [|intros ->; apply eff_pass, EP2].
          intros E. inversion E; subst. match goal with H : method_syntax a _ _ |- _ => apply C40_parse in H; rewrite EP in H; injection H as -> -> end. reflexivity.
        * split; [discriminate|]. split; [repeat constructor|]. intros s' E. inversion E; subst.
          match goal with H : method_syntax a _ _ |- _ => apply C40_parse in H; congruence end.
      + (* r *) unfold opt_u32. destruct (pair_of (PARSENUM_unsigned 32 a 1 32 0)) as (x & err & HE). rewrite HE.
        pose proof (fun y => natural_spec a 32 y ltac:(lia) ltac:(lia)) as HS. change (Z.of_N 32) with 32%Z in HS.
        destruct (N.eqb_spec err 0) as [->|HN].
        * intros s'. split.
          -- intros E. inversion E; subst. match goal with H : natural _ _ _ _ |- _ => apply HS in H; rewrite HE in H; injection H as -> end. reflexivity.
          -- intros ->. apply eff_r, HS, HE.
        * unfold bad_number. split; [discriminate|]. split; [repeat constructor|]. intros s' E. inversion E; subst.
          match goal with H : natural _ _ _ _ |- _ => apply HS in H; congruence end.
      + (* t *) unfold opt_double. destruct (pair_of (PARSENUM_float strtod a d0 dinf)) as (x & err & HE). rewrite HE.
        pose proof (float_spec a dinf) as HS. destruct (N.eqb_spec err 0) as [->|HN].
        * intros s'. split.
          -- intros E. inversion E; subst. match goal with H : float _ _ _ _ |- _ => apply HS in H; rewrite HE in H; injection H as -> end. reflexivity.
          -- intros ->. apply eff_t, HS, HE.
        * split; [discriminate|]. split; [repeat constructor|]. intros s' E. inversion E; subst.
          match goal with H : float _ _ _ _ |- _ => apply HS in H; congruence end.
    - intros _. cbn. split; [discriminate|]. split; [repeat constructor|]. intros s' E. inversion E.
    - intros _. cbn. split; [discriminate|]. split; [repeat constructor|]. intros s' E. inversion E.
    - intros _. cbn. split; [discriminate|]. split; [repeat constructor|]. intros s' E. inversion E.
  Qed.
  Fixpoint fold_options (v : ovars) (os : list obs) : oresult :=
    match os with
    | [] => inl v
    | o :: os => match do_option W v o with inl v => fold_options v os | inr evs => inr evs end
    end.
  Lemma fold_options_spec evs : Forall event_ok evs -> forall v,
    match fold_options v (map (observe true) evs) with
    | inl v' => forall s', effects strtod size_max (settings_of v) evs s' <-> s' = settings_of v'
    | inr ms => ms <> [] /\ Forall is_message ms /\ forall s', ~ effects strtod size_max (settings_of v) evs s'
    end.
  Proof.
    intros H. induction H as [|e evs HE _ IH]; intros v; cbn [map fold_options].
    - intros s'. split; [intros E; inversion E; reflexivity|intros ->; constructor].
    - pose proof (do_option_spec v e HE) as HD. destruct (do_option W v (observe true e)) as [v1|ms].
      + specialize (IH v1). destruct (fold_options v1 _) as [v2|ms].
        * intros s'. rewrite <- IH. split.
          -- intros E. inversion E; subst. match goal with H : effect _ _ _ _ _ |- _ => apply HD in H; subst end. assumption.
          -- intros E. econstructor; [apply HD; reflexivity|exact E].
        * destruct IH as (A & B & C). split; [exact A|]. split; [exact B|]. intros s' E. inversion E; subst.
          match goal with H : effect _ _ _ _ _ |- _ => apply HD in H; subst end. eapply C; eassumption.
      + destruct HD as (A & B & C). split; [exact A|]. split; [exact B|]. intros s' E. inversion E; subst. eapply C; eassumption.
  Qed.
  Lemma option_loop_fold opts argv : forall fuel st os ind, getopt_loop opts true argv fuel st = Ok (os, ind) -> forall v,
    option_loop W opts argv fuel st v = match fold_options v os with inl v' => Ok (inl (v', ind)) | inr evs => Ok (inr evs) end.
  Proof.
    induction fuel as [|f IH]; intros st os ind E v; [discriminate|]. cbn [getopt_loop option_loop] in *.
    apply bind_inv in E. destruct E as ([st' r] & E1 & E). rewrite E1, bind_Ok. destruct r as [r|].
    - apply bind_inv in E. destruct E as (o & E2 & E). rewrite E2, bind_Ok. apply bind_inv in E. destruct E as ([os' ind'] & E3 & E).
      apply Ok_inj in E. assert (os = o :: os') as -> by congruence. assert (ind = ind') as -> by congruence. cbn [fold_options].
      destruct (do_option W v o) as [v'|evs]; [apply (IH _ _ _ E3)|reflexivity].
    - apply Ok_inj in E. assert (os = []) as -> by congruence. assert (ind = g_optind st') as -> by congruence. reflexivity.
  Qed.
End Proofs.
Lemma options_ok : exists opts, options = Ok opts /\ table_of opts = scrypt_options.
Proof. eexists. split; [vm_compute; reflexivity|vm_compute; reflexivity]. Qed.
Lemma scrypt_options_good : good_table scrypt_options.
Proof.
  split.
  - unfold scrypt_options. cbn [map fst]. repeat constructor; cbn; intros H; repeat (destruct H as [H|H]; [discriminate H|]); exact H.
  - apply Forall_forall. intros o H. unfold scrypt_options in H.
    repeat (destruct H as [H|H]; [subst o; cbn [fst]; split;
      [first [left; eexists; split; [reflexivity|vm_compute; discriminate] | right; eexists; eexists; reflexivity]
      |cbn; intros H; repeat (destruct H as [H|H]; [discriminate H|]); exact H]|]). destruct H.
Qed.
Lemma parse_known T : (forall args evs rest, parse T args evs rest ->
    Forall (fun e => match e with Flag n => In (n, false) T | Arg n _ => In (n, true) T | _ => True end) evs).
Proof.
  enough ((forall args evs rest, parse T args evs rest -> Forall (fun e => match e with Flag n => In (n, false) T | Arg n _ => In (n, true) T | _ => True end) evs) /\
    (forall cs args evs rest, cluster T cs args evs rest -> Forall (fun e => match e with Flag n => In (n, false) T | Arg n _ => In (n, true) T | _ => True end) evs)) as [H _] by exact H.
  apply (parse_mutind T (fun args evs rest _ => Forall (fun e => match e with Flag n => In (n, false) T | Arg n _ => In (n, true) T | _ => True end) evs)
    (fun cs args evs rest _ => Forall (fun e => match e with Flag n => In (n, false) T | Arg n _ => In (n, true) T | _ => True end) evs)); intros; repeat (constructor; try assumption); auto.
Qed.

(** ** C39 *)
Lemma prep_go W dec info rest w s0 : settings_of (start (negb dec && negb info)) = s0 -> Forall cstring (w :: rest) ->
  exists evs args, parse scrypt_options rest evs args /\
  (exists opts, options = Ok opts /\
  let r := (r <- option_loop W opts (w :: rest) (S (List.length (concat (w :: rest)) + List.length (w :: rest))) gs0 (start (negb dec && negb info)) ;;
      match r with
      | inr evs => Ok (fail W evs (w_heap W))
      | inl (v, optind) => after_options W dec info v (skipn optind (w :: rest))
      end) in
  ((exists v, settings_of v = settings_of v /\ (forall s', effects (w_strtod W) (SIZE_MAX (m_szb (w_M W))) s0 evs s' <-> s' = settings_of v) /\ r = after_options W dec info v args) \/
   ((forall s', ~ effects (w_strtod W) (SIZE_MAX (m_szb (w_M W))) s0 evs s') /\ rejected W r))).
Proof.
  intros Hs HC. destruct options_ok as (opts & EO & ET).
  destruct (C38_parse opts true (w :: rest) (S (List.length (concat (w :: rest)) + List.length (w :: rest)))) as (evs & ind & EL & HP).
  { rewrite ET. apply scrypt_options_good. } { exact HC. } { lia. }
  rewrite ET in HP. cbn [tl] in HP. exists evs, (skipn ind (w :: rest)). split; [exact HP|]. exists opts. split; [exact EO|].
  pose proof (fold_options_spec W evs (parse_known _ _ _ _ HP) (start (negb dec && negb info))) as HF.
  rewrite (option_loop_fold W opts _ _ _ _ _ EL (start (negb dec && negb info))). rewrite Hs in HF.
  destruct (fold_options W _ _) as [v|ms].
  - left. exists v. split; [reflexivity|]. split; [exact HF|]. rewrite bind_Ok. reflexivity.
  - right. destruct HF as (A & B & C). split; [exact C|]. rewrite bind_Ok. exists ms. split; [reflexivity|]. split; assumption.
Qed.
Definition checks (W : world) (dec info : bool) (v : ovars) (i o : option bytes) : res presult :=
  let P := v_P v in
  let bad t := Ok (fail W [E_warn t] (w_heap W)) in
  if negb (x_logN P =? 0)%Z && ((x_r P =? 0) || (x_p P =? 0)) then bad (str "If --logN is set, -r and -p must also be set") else
  if negb (x_r P =? 0) && ((x_logN P =? 0)%Z || (x_p P =? 0)) then bad (str "If -r is set, --logN and -p must also be set") else
  if negb (x_p P =? 0) && ((x_logN P =? 0)%Z || (x_r P =? 0)) then bad (str "If -p is set, --logN and -r must also be set") else
  if deq (l_maxmemfrac (x_lim P)) d0 then bad (str "-m must be greater than 0") else
  let '(m, marg) := if is_unset (v_entry v) then (PASSPHRASE_TTY_STDIN, []) else (v_entry v, v_arg v) in
  if (match m with PASSPHRASE_STDIN_ONCE => true | _ => false end) && (match i with None => true | Some _ => false end)
  then bad (str "Cannot read both passphrase and input file from standard input") else
  if (info : bool) then scrypt_mode_info W i
  else scrypt_mode_enc_dec W P m marg dec (v_verbose v) (v_force v) i o.
Lemma warn_rejected W t : rejected W (Ok (fail W [E_warn t] (w_heap W))).
Proof. eexists. split; [reflexivity|]. split; [discriminate|]. repeat constructor. Qed.
Lemma usage_rejected W : rejected W (Ok (fail W [E_usage] (w_heap W))).
Proof. eexists. split; [reflexivity|]. split; [discriminate|]. repeat constructor. Qed.
Lemma checks_spec W m v i o : let s := settings_of v in
  let r := checks W (match m with Dec => true | _ => false end) (match m with Info => true | _ => false end) v i o in
  (acceptable s i /\ r = operation W m s i o) \/ (~ acceptable s i /\ rejected W r).
Proof.
  cbv zeta. unfold checks, acceptable. destruct v as [f vb en ar [[M fr t] l r p]].
  cbn [v_P x_lim x_logN x_r x_p v_force v_verbose v_entry v_arg l_maxmem l_maxmemfrac l_maxtime settings_of s_logN s_r s_p s_maxmemfrac s_method].
  destruct (negb (l =? 0)%Z && ((r =? 0) || (p =? 0))) eqn:E1. { right. split; [lia|apply warn_rejected]. }
  destruct (negb (r =? 0) && ((l =? 0)%Z || (p =? 0))) eqn:E2. { right. split; [lia|apply warn_rejected]. }
  destruct (negb (p =? 0) && ((l =? 0)%Z || (r =? 0))) eqn:E3. { right. split; [lia|apply warn_rejected]. }
  destruct (deq fr d0) eqn:E4. { right. split; [intuition congruence|apply warn_rejected]. }
  assert ((l = 0%Z /\ r = 0 /\ p = 0) \/ (l <> 0%Z /\ r <> 0 /\ p <> 0)) as HA by lia. clear E1 E2 E3.
  assert (forall Q : Prop, Q -> ((l = 0%Z /\ r = 0 /\ p = 0) \/ (l <> 0%Z /\ r <> 0 /\ p <> 0)) /\ false = false /\ Q) as HI by auto.
  destruct en; cbn [is_unset];
  try (left; split; [apply HI; intros [_ [a H]]; discriminate H|destruct m; reflexivity]).
  destruct i as [i|]; cbn [andb].
  - left. split; [apply HI; intros [H _]; discriminate H|destruct m; reflexivity].
  - right. split; [intros (_ & _ & H); apply H; split; [reflexivity|eexists; reflexivity]|apply warn_rejected].
Qed.
Lemma after_options_spec W m v args : let s := settings_of v in
  let r := after_options W (match m with Dec => true | _ => false end) (match m with Info => true | _ => false end) v args in
  (exists i o, file_arguments args i o /\ acceptable s i /\ r = operation W m s i o) \/
  ((forall i o, file_arguments args i o -> ~ acceptable s i) /\ rejected W r).
Proof.
  cbv zeta. destruct args as [|a0 rest].
  { right. split; [intros i o H; inversion H|apply usage_rejected]. }
  destruct (match rest with _ :: _ :: _ => true | _ => false end) eqn:EL.
  { destruct rest as [|a1 [|a2 rest]]; try discriminate. right. split; [intros i o H; inversion H|apply usage_rejected]. }
  set (i := if list_eqb a0 (str "-") then None else Some a0). set (o := match rest with [] => None | a1 :: _ => Some a1 end).
  assert (file_arguments (a0 :: rest) i o) as HFA.
  { unfold i, o. destruct (list_eqb a0 (str "-")) eqn:E.
    - apply list_eqb_spec in E. subst a0. destruct rest as [|a1 [|a2 rest]]; [constructor|constructor|discriminate].
    - assert (a0 <> str "-") by (intros ->; vm_compute in E; discriminate). destruct rest as [|a1 [|a2 rest]]; [constructor|constructor|discriminate]; assumption. }
  assert (forall i' o', file_arguments (a0 :: rest) i' o' -> i' = i /\ o' = o) as HFU.
  { intros i' o' H. inversion H; subst; inversion HFA; subst; auto; congruence. }
  assert (after_options W (match m with Dec => true | _ => false end) (match m with Info => true | _ => false end) v (a0 :: rest) =
    checks W (match m with Dec => true | _ => false end) (match m with Info => true | _ => false end) v i o) as ->.
  { unfold i, o. destruct rest as [|a1 [|a2 rest]]; [reflexivity|reflexivity|discriminate]. }
  clearbody i o. destruct (checks_spec W m v i o) as [[H1 H2]|[H1 H2]].
  - left. exists i, o. auto.
  - right. split; [|exact H2]. intros i' o' H. destruct (HFU _ _ H) as [-> ->]. exact H1.
Qed.
(** Every argument vector: the options and arguments are those of the grammar.
    Either they make acceptable settings, and the program does what is asked with
    just these settings; or they do not, and the program only prints messages and
    exits with status 1. *)
Theorem C39_validation : forall W prog m rest, Forall cstring rest ->
  exists evs args, parse scrypt_options rest evs args /\
  let effs := effects (w_strtod W) (SIZE_MAX (m_szb (w_M W))) (default_settings (is_enc m)) evs in
  let r := main W (prog :: mode_word m :: rest) in
  (exists s i o, effs s /\ file_arguments args i o /\ acceptable s i /\ r = operation W m s i o) \/
  ((forall s i o, effs s -> file_arguments args i o -> ~ acceptable s i) /\ rejected W r).
Proof.
  intros W prog m rest HC.
  set (dec := match m with Dec => true | _ => false end). set (info := match m with Info => true | _ => false end).
  destruct (prep_go W dec info rest (mode_word m) (default_settings (is_enc m))) as (evs & args & HP & opts & EO & HR).
  { destruct m; reflexivity. }
  { constructor; [|exact HC]. destruct m; cbn; intros H; repeat (destruct H as [H|H]; [discriminate H|]); exact H. }
  exists evs, args. split; [exact HP|]. cbv zeta.
  assert (main W (prog :: mode_word m :: rest) = (r <- option_loop W opts (mode_word m :: rest)
      (S (List.length (concat (mode_word m :: rest)) + List.length (mode_word m :: rest))) gs0 (start (negb dec && negb info)) ;;
      match r with
      | inr evs => Ok (fail W evs (w_heap W))
      | inl (v, optind) => after_options W dec info v (skipn optind (mode_word m :: rest))
      end)) as ->.
  { unfold main. destruct m; cbn [mode_word];
    repeat match goal with |- context [list_eqb (str ?a) (str ?b)] =>
        let q := eval vm_compute in (list_eqb (str a) (str b)) in change (list_eqb (str a) (str b)) with q; cbv iota end;
    cbv beta iota zeta; rewrite EO, bind_Ok; reflexivity. }
  cbv zeta in HR. destruct HR as [(v & _ & HE & ->)|[HN HR]].
  - destruct (after_options_spec W m v args) as [(i & o & H1 & H2 & H3)|[H1 H2]].
    + left. exists (settings_of v), i, o. split; [apply HE; reflexivity|]. auto.
    + right. split; [|exact H2]. intros s i o Hs. apply HE in Hs. subst s. apply H1.
  - right. split; [|exact HR]. intros s i o Hs. exfalso. exact (HN s Hs).
Qed.
Print Assumptions C39_validation.
(** Any other first argument: only --version is a request. *)
Theorem C39_no_mode : forall W argv, (forall prog m rest, argv <> prog :: mode_word m :: rest) ->
  (exists prog rest, argv = prog :: str "--version" :: rest /\ main W argv = Ok (mk_pr 0 [E_version] (w_stdout W) None (w_heap W))) \/
  ((forall prog rest, argv <> prog :: str "--version" :: rest) /\ rejected W (main W argv)).
Proof.
  intros W argv H. destruct argv as [|prog [|w rest]]; cbn [main].
  1,2: right; split; [intros; discriminate|apply usage_rejected].
  destruct (list_eqb w (str "enc")) eqn:E1. { apply list_eqb_spec in E1. subst w. exfalso. exact (H prog Enc rest eq_refl). }
  destruct (list_eqb w (str "dec")) eqn:E2. { apply list_eqb_spec in E2. subst w. exfalso. exact (H prog Dec rest eq_refl). }
  destruct (list_eqb w (str "info")) eqn:E3. { apply list_eqb_spec in E3. subst w. exfalso. exact (H prog Info rest eq_refl). }
  destruct (list_eqb w (str "--version")) eqn:E4.
  - apply list_eqb_spec in E4. subst w. left. exists prog, rest. split; reflexivity.
  - right. split.
    + intros p r E. assert (w = str "--version") as -> by congruence. vm_compute in E4. discriminate.
    + eexists. split; [reflexivity|]. split; [discriminate|]. repeat constructor.
Qed.
Print Assumptions C39_no_mode.
(** What the user asked for: the settings and file names of a command line. *)
Definition requested (W : world) (m : mode) (rest : list bytes) (s : settings) (i o : option bytes) : Prop :=
  exists evs args, parse scrypt_options rest evs args /\
    effects (w_strtod W) (SIZE_MAX (m_szb (w_M W))) (default_settings (is_enc m)) evs s /\ file_arguments args i o /\ acceptable s i.
(** A command line asks for at most one thing. *)
Theorem C39_determined : forall W m rest s i o s' i' o', requested W m rest s i o -> requested W m rest s' i' o' -> s' = s /\ i' = i /\ o' = o.
Proof.
  intros W m rest s i o s' i' o' (evs & args & P1 & E1 & F1 & _) (evs' & args' & P2 & E2 & F2 & _).
  destruct (C38_unambiguous scrypt_options scrypt_options_good rest evs args P1 evs' args' P2) as [A1 A2]. subst evs' args'.
  split.
  - pose proof (fold_options_spec W evs (parse_known _ _ _ _ P1) (start (is_enc m))) as HF.
    replace (settings_of (start (is_enc m))) with (default_settings (is_enc m)) in HF by (destruct m; reflexivity).
    destruct (fold_options W _ _) as [v|ms]; [|destruct HF as (_ & _ & HF); destruct (HF _ E1)].
    apply HF in E1, E2. congruence.
  - inversion F1; subst; inversion F2; subst; auto; congruence.
Qed.
(** The program does what is asked for, or rejects. *)
Theorem C39_operation : forall W prog m rest s i o, Forall cstring rest -> requested W m rest s i o ->
  main W (prog :: mode_word m :: rest) = operation W m s i o.
Proof.
  intros W prog m rest s i o HC (evs & args & P & E & F & A).
  destruct (C39_validation W prog m rest HC) as (evs' & args' & P' & HV).
  destruct (C38_unambiguous scrypt_options scrypt_options_good rest evs args P evs' args' P') as [A1 A2]. subst evs' args'.
  cbv zeta in HV. destruct HV as [(s1 & i1 & o1 & E1 & F1 & A1 & ->)|[HN _]]; [|destruct (HN s i o E F A)].
  destruct (C39_determined W m rest s i o s1 i1 o1) as (-> & -> & ->); [exists evs, args; auto|exists evs, args; auto|reflexivity].
Qed.
Theorem C39_rejects : forall W prog m rest, Forall cstring rest -> (forall s i o, ~ requested W m rest s i o) ->
  rejected W (main W (prog :: mode_word m :: rest)).
Proof.
  intros W prog m rest HC HN. destruct (C39_validation W prog m rest HC) as (evs' & args' & P' & HV).
  cbv zeta in HV. destruct HV as [(s1 & i1 & o1 & E1 & F1 & A1 & _)|[_ H]]; [|exact H].
  destruct (HN s1 i1 o1). exists evs', args'. auto.
Qed.
(** Settings that are started with are in range. *)
Definition in_range (W : world) (s : settings) : Prop :=
  ((s_logN s = 0%Z /\ s_r s = 0 /\ s_p s = 0) \/ ((10 <= s_logN s <= 40)%Z /\ 1 <= s_r s <= 32 /\ 1 <= s_p s <= 2048)) /\
  s_maxmem s <= SIZE_MAX (m_szb (w_M W)) /\
  dlt (s_maxmemfrac s) d0 = false /\ deq (s_maxmemfrac s) d0 = false /\ dlt d0_5 (s_maxmemfrac s) = false /\ dlt (s_maxtime s) d0 = false.
Theorem C39_ranges : forall W m rest s i o, requested W m rest s i o -> in_range W s.
Proof.
  intros W m rest s i o (evs & args & _ & E & _ & A). set (size_max := SIZE_MAX _) in *.
  set (J := fun s : settings => (s_logN s = 0 \/ 10 <= s_logN s <= 40)%Z /\ (s_r s = 0 \/ 1 <= s_r s <= 32) /\ (s_p s = 0 \/ 1 <= s_p s <= 2048) /\
     s_maxmem s <= size_max /\ dlt (s_maxmemfrac s) d0 = false /\ dlt d0_5 (s_maxmemfrac s) = false /\ dlt (s_maxtime s) d0 = false).
  assert (forall s0 evs s1, effects (w_strtod W) size_max s0 evs s1 -> J s0 -> J s1) as HJ.
  { intros s0 evs' s1 HE. induction HE as [|s0 e s1 es s2 HE _ IH]; [auto|]. intros H. apply IH. clear IH. unfold J in *.
    destruct HE; cbn [s_logN s_r s_p s_maxmem s_maxmemfrac s_maxtime] in *; try exact H;
      try match goal with H : natural _ _ _ _ |- _ => destruct H as (? & ? & _ & _ & _ & ?) end;
      try match goal with H : float _ _ _ _ |- _ => destruct H as (? & _ & _ & _ & ? & ?) end; intuition. }
  assert (J s) as HJs. { apply (HJ _ _ _ E). unfold J. destruct m; cbn [is_enc default_settings s_logN s_r s_p s_maxmem s_maxmemfrac s_maxtime]; repeat split; auto; apply N.le_0_l. }
  destruct HJs as (H1 & H2 & H3 & H4 & H5 & H6 & H7), A as (A1 & A2 & _). unfold in_range. fold size_max.
  split; [|auto 10]. destruct A1 as [A1|(A1 & A3 & A4)]; [left; exact A1|right]. intuition contradiction.
Qed.
