(** C56: the dialogue of passphrase entry: what is shown, and that typing is never echoed. *)
From Coq Require Import String.
From Verif Require Import Base SpecAscii SpecBytes SpecSHA SpecScrypt SpecScryptAPI SpecAES SpecFormat SpecStream P_scrypt M_machine M_double M_smix M_stdio P_stdio M_memlimit M_cpuperf
  M_strto M_params Prop_params M_scryptenc SpecScryptenc M_getopt M_readpass M_print_error M_main M_memzero P_memzero SpecPass SpecGetopt SpecCLI P_scrypt_ref P_scryptenc P_scryptenc2 P_scryptenc3 P_scryptenc4
  P_scryptenc7 P_scryptenc8 P_scryptenc9 P_entropy M_entropy P_readpass Prop_getopt Prop_readpass Prop_enc Prop_dec Prop_io Prop_cli P_main Prop_main.
Local Open Scope list_scope.

(** ** Specification *)
(** The part of a trace the user at the terminal is aware of. *)
Definition noticed (a : act) : bool := match a with A_prompt _ | A_read | A_echo_off | A_echo_back => true | _ => false end.
(** A line is asked for and read; only at a terminal is there a prompt. *)
Definition asked (term : bool) (prompt : bytes) : list act := (if term then [A_prompt (prompt ++ str ": ")] else []) ++ [A_read].
Definition mismatch : act := A_prompt (str "Passwords mismatch, please try again" ++ [newline]).
(** The dialogue: [conf] is the prompt for the confirmation, if there is one;
    [finished] if what was read last was not missing. *)
Inductive dialogue (term : bool) (pr : bytes) : option bytes -> bool -> list act -> Prop :=
| D_once finished : dialogue term pr None finished (asked term pr)
| D_half c : dialogue term pr (Some c) false (asked term pr)
| D_twice c finished : dialogue term pr (Some c) finished (asked term pr ++ asked term c)
| D_again c finished t : dialogue term pr (Some c) finished t -> dialogue term pr (Some c) finished (asked term pr ++ asked term c ++ mismatch :: t).
(** At a terminal, echo is off exactly while the dialogue lasts. *)
Definition unechoed (term : bool) (t : list act) : list act := if term then A_echo_off :: t ++ [A_echo_back] else t.

(** ** Proofs *)
Lemma noticed_asked (term : bool) p tl : filter noticed ((if term then [A_prompt (p ++ str ": ")] else []) ++ A_read :: tl) = asked term p ++ filter noticed tl.
Proof. unfold asked. destruct term; reflexivity. Qed.
Lemma retry_dialogue term pr conf : forall fuel s r s' tr, readpass_retry fuel term pr conf s = Some (r, s', tr) ->
  dialogue term pr conf (match r with Some _ => true | None => false end) (filter noticed tr).
Proof.
  induction fuel as [|fuel IH]; intros s r s' tr H; [discriminate H|]. cbn [readpass_retry] in H.
  destruct (fgets MAXPASSLEN s) as [[p1|] s1].
  2:{ injection H as <- _ <-. rewrite noticed_asked. cbn [filter noticed]. rewrite app_nil_r. destruct conf; constructor. }
  destruct conf as [c|].
  2:{ injection H as <- _ <-. rewrite noticed_asked. cbn [filter noticed]. rewrite app_nil_r. constructor. }
  destruct (fgets MAXPASSLEN s1) as [[p2|] s2].
  2:{ injection H as <- _ <-. cbn [app]. rewrite noticed_asked, noticed_asked. cbn [filter noticed]. rewrite app_nil_r. constructor. }
  destruct (list_eqb (cstr p1) (cstr p2)).
  - injection H as <- _ <-. cbn [app]. rewrite noticed_asked, noticed_asked. cbn [filter noticed]. rewrite app_nil_r. constructor.
  - destruct (readpass_retry fuel term pr (Some c) s2) as [[[r3 s3] tr3]|] eqn:E; [|discriminate H]. injection H as -> _ <-.
    cbn [app]. rewrite noticed_asked, noticed_asked. cbn [filter noticed]. fold mismatch. apply D_again. exact (IH _ _ _ _ E).
Qed.
Lemma filter_start : filter noticed (A_clear :: map A_catch badsigs) = [].
Proof. reflexivity. Qed.
Lemma filter_reset : filter noticed resetsigs = [].
Proof. reflexivity. Qed.
Lemma from_dialogue E tty src stdin pr conf o : readpass_from E tty src stdin pr conf = Ok o ->
  let term := if tty then re_tty_isatty E else re_stdin_isatty E in
  (filter noticed (ro_acts o) = [] /\ ro_pass o = None /\ term = true /\ (re_tcgetattr E = false \/ re_tcsetattr E = false)) \/
  exists finished t, dialogue term pr conf finished t /\ filter noticed (ro_acts o) = unechoed term t /\ (ro_pass o <> None -> finished = true).
Proof.
  cbv zeta. unfold readpass_from. set (term := if tty then re_tty_isatty E else re_stdin_isatty E).
  set (cl := if tty then A_close :: _ else []).
  assert (filter noticed cl = []) as Hcl by (unfold cl; destruct tty; [destruct (re_fclose E)|]; reflexivity). clearbody cl.
  destruct (term && negb (re_tcgetattr E)) eqn:E1.
  { intros H. apply Ok_inj in H. subst o. left. cbn [ro_acts ro_pass]. rewrite !filter_app, filter_start, filter_reset, Hcl. apply andb_prop in E1. destruct E1 as [E1 E2].
    destruct (re_tcgetattr E); [discriminate E2|]. auto. }
  destruct (term && negb (re_tcsetattr E)) eqn:E2.
  { intros H. apply Ok_inj in H. subst o. left. cbn [ro_acts ro_pass]. rewrite !filter_app, filter_start, filter_reset, Hcl. apply andb_prop in E2. destruct E2 as [E2 E3].
    destruct (re_tcsetattr E); [discriminate E3|]. auto. }
  destruct (readpass_retry (in_size src) term pr conf src) as [[[r s'] tr]|] eqn:Er; [|discriminate].
  pose proof (retry_dialogue _ _ _ _ _ _ _ _ Er) as HD.
  intros H. right. exists (match r with Some _ => true | None => false end), (filter noticed tr). split; [exact HD|].
  destruct r as [x|].
  - destruct (re_strdup E); apply Ok_inj in H; subst o; cbn [ro_acts ro_pass]; rewrite !filter_app, filter_start, filter_reset, Hcl; destruct term; cbn; rewrite ?app_nil_r; split; reflexivity.
  - apply Ok_inj in H. subst o. cbn [ro_acts ro_pass]. rewrite !filter_app, filter_start, filter_reset, Hcl. split; [destruct term; cbn; rewrite ?app_nil_r; reflexivity|congruence].
Qed.
(** ** C56 *)
(** Whatever is read and whatever fails: unless the terminal could not be set
    up (then nothing is asked and the call fails) the user sees a dialogue. *)
Theorem C56_dialogue : forall E stdin pr conf devtty src term o, source E stdin devtty src term -> readpass E stdin pr conf devtty = Ok o ->
  (filter noticed (ro_acts o) = [] /\ ro_pass o = None /\ term = true /\ (re_tcgetattr E = false \/ re_tcsetattr E = false)) \/
  exists finished t, dialogue term pr conf finished t /\ filter noticed (ro_acts o) = unechoed term t /\ (ro_pass o <> None -> finished = true).
Proof.
  intros E stdin pr conf devtty src term o HS H. destruct (source_readpass E stdin pr conf devtty src term HS) as (tty & E1 & -> & _).
  rewrite E1 in H. exact (from_dialogue _ _ _ _ _ _ _ H).
Qed.
Definition prompted (l : list act) : Prop := forall x y, l = x ++ A_read :: y -> exists x' p, x = x' ++ [A_prompt p].
Lemma prompted_nil : prompted [].
Proof. intros [|a x] y H; discriminate H. Qed.
Lemma prompted_skip a l : a <> A_read -> prompted l -> prompted (a :: l).
Proof.
  intros Ha Hl [|b x] y H; [injection H; congruence|]. injection H as -> H. destruct (Hl _ _ H) as (x' & p & ->). exists (b :: x'), p. reflexivity.
Qed.
Lemma prompted_read p l : prompted l -> prompted (A_prompt p :: A_read :: l).
Proof.
  intros Hl [|b x] y H; [discriminate H|]. injection H as <- H. destruct x as [|c x]; [exists [], p; reflexivity|]. injection H as <- H.
  destruct (Hl _ _ H) as (x' & p' & ->). exists (A_prompt p :: A_read :: x'), p'. reflexivity.
Qed.
Lemma dialogue_true pr conf finished t : dialogue true pr conf finished t -> forall tl, prompted tl ->
  prompted (t ++ tl) /\ ~ In A_echo_off t /\ ~ In A_echo_back t.
Proof.
  assert (~ In A_echo_off [] /\ ~ In A_echo_back []) as HN by (split; intros []).
  assert (forall p l, ~ In A_echo_off l /\ ~ In A_echo_back l -> ~ In A_echo_off (asked true p ++ l) /\ ~ In A_echo_back (asked true p ++ l)) as HA.
  { intros p l [H1 H2]. unfold asked. cbn [app In]. split; intros [H|[H|H]]; try discriminate H; auto. }
  assert (forall p l, prompted l -> prompted (asked true p ++ l)) as HP by (intros p l; apply prompted_read).
  induction 1 as [b|c|c b|c b t H IH]; intros tl Htl.
  - split; [apply HP, Htl|]. rewrite <- (app_nil_r (asked true pr)). apply HA, HN.
  - split; [apply HP, Htl|]. rewrite <- (app_nil_r (asked true pr)). apply HA, HN.
  - rewrite <- app_assoc. split; [apply HP, HP, Htl|]. apply HA. rewrite <- (app_nil_r (asked true c)). apply HA, HN.
  - destruct (IH tl Htl) as (I1 & I2 & I3). rewrite <- !app_assoc. cbn [app]. split; [apply HP, HP, prompted_skip; [discriminate|exact I1]|].
    apply HA, HA. split; intros [K|K]; try discriminate K; auto.
Qed.
Lemma filter_In_act P (a : act) l : P a = true -> ~ In a (filter P l) -> ~ In a l.
Proof. intros HP HN HI. apply HN, filter_In. auto. Qed.
(** At a terminal: each line read was asked for by the prompt before it, echo
    had been switched off and not yet restored, and it is restored afterwards. *)
Theorem C56_echo : forall E stdin pr conf devtty src o a b, source E stdin devtty src true -> readpass E stdin pr conf devtty = Ok o ->
  ro_acts o = a ++ A_read :: b ->
  In A_echo_off a /\ ~ In A_echo_back a /\ In A_echo_back b /\ ~ In A_echo_off b /\
  exists a1 p a2, a = a1 ++ A_prompt p :: a2 /\ ~ In A_read a2.
Proof.
  intros E stdin pr conf devtty src o a b HS HR HA. destruct (C56_dialogue _ _ _ _ _ _ _ _ HS HR) as [(HF & _)|(finished & t & HD & HF & _)].
  { rewrite HA, filter_app in HF. cbn [filter noticed] in HF. destruct (filter noticed a); discriminate HF. }
  rewrite HA, filter_app in HF. cbn [filter noticed unechoed] in HF.
  assert (prompted [A_echo_back]) as HB0 by (apply prompted_skip; [discriminate|exact prompted_nil]).
  destruct (dialogue_true _ _ _ _ HD [A_echo_back] HB0) as (HP & N1 & N2).
  destruct (filter noticed a) as [|x0 fa] eqn:EA; [discriminate HF|]. injection HF as HX HF.
  destruct (HP fa (filter noticed b) (eq_sym HF)) as (fa' & p & ->).
  assert (exists fb, filter noticed b = fb ++ [A_echo_back]) as [fb EB].
  { assert (filter noticed b = [] \/ exists l z, filter noticed b = l ++ [z]) as [HB|(l & z & HB)].
    { destruct (filter noticed b) as [|u l]; [left; reflexivity|right]. destruct (@exists_last _ (u :: l) ltac:(discriminate)) as (l' & z & ->). eauto. }
    - rewrite HB in HF. change ((fa' ++ [A_prompt p]) ++ [A_read] = t ++ [A_echo_back]) in HF || idtac. apply app_inj_tail in HF. destruct HF as [_ HF]. discriminate HF.
    - exists l. rewrite HB in HF. change ((fa' ++ [A_prompt p]) ++ A_read :: l ++ [z]) with ((fa' ++ [A_prompt p]) ++ (A_read :: l) ++ [z]) in HF. rewrite app_assoc in HF.
      apply app_inj_tail in HF. destruct HF as [_ ->]. exact HB. }
  rewrite EB in HF. change ((fa' ++ [A_prompt p]) ++ A_read :: fb ++ [A_echo_back]) with ((fa' ++ [A_prompt p]) ++ (A_read :: fb) ++ [A_echo_back]) in HF.
  rewrite app_assoc in HF. apply app_inj_tail in HF. destruct HF as [HT _].
  assert (forall z, noticed z = true -> In z (filter noticed a) -> In z a) as I1 by (intros z _ Hz; apply filter_In in Hz; tauto).
  split; [apply I1; [reflexivity|]; rewrite EA, HX; left; reflexivity|].
  split.
  { apply (filter_In_act noticed); [reflexivity|]. rewrite EA, HX. intros [H|H]; [discriminate H|]. apply N2. rewrite <- HT. apply in_or_app. left. exact H. }
  split. { assert (In A_echo_back (filter noticed b)) as H by (rewrite EB; apply in_or_app; right; left; reflexivity). apply filter_In in H. tauto. }
  split.
  { apply (filter_In_act noticed); [reflexivity|]. rewrite EB. intros H. apply in_app_or in H. destruct H as [H|[H|[]]]; [|discriminate H].
    apply N1. rewrite <- HT. apply in_or_app. right. right. exact H. }
  assert (forall l z q, filter noticed l = z ++ [A_prompt q] -> exists a1 a2, l = a1 ++ A_prompt q :: a2 /\ ~ In A_read a2) as HL.
  { clear. induction l as [|x l IH] using rev_ind; intros z q H; [destruct z; discriminate H|]. rewrite filter_app in H. cbn [filter] in H.
    destruct (noticed x) eqn:EN.
    - apply app_inj_tail in H. destruct H as [_ ->]. exists l, []. split; [reflexivity|intros []].
    - rewrite app_nil_r in H. destruct (IH _ _ H) as (a1 & a2 & -> & HN). exists a1, (a2 ++ [x]). split; [rewrite <- app_assoc; reflexivity|].
      intros K. apply in_app_or in K. destruct K as [K|[->|[]]]; [exact (HN K)|discriminate EN]. }
  destruct (HL a (x0 :: fa') p) as (a1 & a2 & H1 & H2). { rewrite EA. reflexivity. } exists a1, p, a2. auto.
Qed.
(** *** The program *)
Definition other (e : pevent) : Prop := match e with E_pass _ _ => False | _ => True end.
Lemma other_in evs acts ok : Forall other evs -> ~ In (E_pass acts ok) evs.
Proof. intros H HI. rewrite Forall_forall in H. exact (H _ HI). Qed.
Lemma other_close_in W i : Forall other (close_in W i).
Proof. unfold close_in, warn_close. destruct i; [destruct (w_close_in W)|]; repeat constructor. Qed.
Lemma other_close_out W i : Forall other (close_out W i).
Proof. unfold close_out, warn_close. destruct i; [destruct (w_close_out W)|]; repeat constructor. Qed.
Lemma other_error rc i o pe : print_error rc i o = Ok pe -> Forall other pe.
Proof. unfold print_error. intros H. apply bind_inv in H. destruct H as (x & _ & H). apply Ok_inj in H. subst pe. repeat constructor. Qed.
Ltac oth := repeat first [assumption | apply other_close_in | apply other_close_out | apply Forall_nil | (apply Forall_app; split) | (apply Forall_cons; [exact I|])].
Lemma run_other W dec P lb h C passwd fi verbose force i o r : enc_dec_run W dec P lb h C passwd fi verbose force i o = Ok r -> Forall other (pr_events r).
Proof.
  intros E. unfold enc_dec_run in E. destruct (match o with None => Some (w_stdout W) | Some n => w_open_out W n end) as [fo|].
  - apply bind_inv in E. destruct E as ([[[rc ms] fo2] h2] & _ & E). apply bind_inv in E. destruct E as (h3 & _ & E).
    rewrite release_pass_ok, bind_Ok in E. apply bind_inv in E. destruct E as (pe & EPE & E).
    assert (Forall other pe) as HPE by (destruct (is_ok rc); [apply Ok_inj in EPE; subst pe; constructor|exact (other_error _ _ _ _ EPE)]).
    destruct o; apply Ok_inj in E; subst r; cbn [pr_events]; oth.
  - apply bind_inv in E. destruct E as (h3 & _ & E). rewrite release_pass_ok, bind_Ok in E. apply Ok_inj in E. subst r. cbn [fail pr_events]. oth.
Qed.
Lemma enc_dec_entry W s dec i o r acts ok :
  scrypt_mode_enc_dec W (params_of s) (fst (method_of s)) (snd (method_of s)) dec (s_verbose s) (s_force s) i o = Ok r -> In (E_pass acts ok) (pr_events r) ->
  exists rp, ask W s dec = Ok rp /\ acts = ro_acts rp /\ ok = match ro_pass rp with Some _ => true | None => false end.
Proof.
  unfold scrypt_mode_enc_dec. fold (input_stream W i). destruct (input_stream W i) as [fi0|].
  2:{ intros H. apply Ok_inj in H. subst r. intros HI. exfalso. revert HI. apply other_in. cbn [fail pr_events]. oth. }
  intros H HI. apply bind_inv in H. destruct H as (rp & ER & H). fold (ask W s dec) in ER. exists rp. split; [exact ER|].
  set (oi := match i with None => [] | Some n => [E_open_in n true] end) in H.
  assert (Forall other oi) as HOI by (unfold oi; destruct i; repeat constructor). clearbody oi.
  assert (forall evs evs' b, In (E_pass acts ok) ((oi ++ E_pass (ro_acts rp) b :: evs') ++ evs) -> Forall other evs -> Forall other evs' -> acts = ro_acts rp /\ ok = b) as HX.
  { intros evs evs' b K H1 H2. rewrite <- app_assoc in K. apply in_app_or in K. destruct K as [K|K]; [destruct (other_in _ _ _ HOI K)|].
    destruct K as [K|K]; [injection K; auto|]. change (In (E_pass acts ok) (evs' ++ evs)) in K. apply in_app_or in K. destruct K as [K|K]; [destruct (other_in _ _ _ H2 K)|destruct (other_in _ _ _ H1 K)]. }
  destruct (ro_pass rp) as [passwd|] eqn:EP.
  2:{ apply Ok_inj in H. subst r. cbn [fail pr_events] in HI. apply (HX (close_in W i) [E_warn (str "passphrase_entry_readpass")] false); [rewrite <- app_assoc; exact HI|oth|oth]. }
  destruct dec.
  - apply bind_inv in H. destruct H as (oc & EC & H). destruct (is_ok (oc_rc oc)) eqn:EO; cbn [negb] in H.
    + apply bind_inv in H. destruct H as (r1 & E1 & H). apply Ok_inj in H. subst r. unfold add_events in HI. cbn [pr_events] in HI. rewrite <- app_assoc in HI.
      apply (HX (pr_events r1) [E_msgs (oc_msgs oc); E_prep (oc_rc oc)] true); [rewrite <- app_assoc in *; exact HI|exact (run_other _ _ _ _ _ _ _ _ _ _ _ _ _ E1)|oth].
    + apply bind_inv in H. destruct H as (h & EF & H). rewrite release_pass_ok, bind_Ok in H. apply bind_inv in H. destruct H as (pe & EPE & H). apply Ok_inj in H. subst r.
      cbn [fail pr_events] in HI. rewrite <- !app_assoc in HI. pose proof (other_error _ _ _ _ EPE) as HPE.
      apply (HX (E_pass_free (repeat 0 (S (List.length passwd))) :: close_in W i ++ pe) [E_msgs (oc_msgs oc); E_prep (oc_rc oc)] true); [rewrite <- app_assoc; exact HI|oth|oth].
  - apply bind_inv in H. destruct H as (r1 & E1 & H). apply Ok_inj in H. subst r. unfold add_events in HI. cbn [pr_events] in HI.
    apply (HX (pr_events r1) [] true); [exact HI|exact (run_other _ _ _ _ _ _ _ _ _ _ _ _ _ E1)|oth].
Qed.
(** What the program asks, and when: *)
Inductive interview (W : world) (m : mode) (s : settings) (acts : list act) (ok : bool) : Prop :=
| I_silent : fst (method_of s) = PASSPHRASE_ENV \/ fst (method_of s) = PASSPHRASE_FILE ->
    (forall t, ~ In (A_prompt t) acts) -> ~ In A_echo_off acts -> ~ In A_echo_back acts -> interview W m s acts ok
| I_failed : filter noticed acts = [] -> ok = false -> interview W m s acts ok
| I_asked conf devtty src term finished t :
    (fst (method_of s) = PASSPHRASE_TTY_STDIN /\ devtty = 1%Z /\ conf = (if is_enc m then Some (str "Please confirm passphrase") else None) \/
     fst (method_of s) = PASSPHRASE_STDIN_ONCE /\ devtty = 0%Z /\ conf = None \/
     fst (method_of s) = PASSPHRASE_TTY_ONCE /\ devtty = 2%Z /\ conf = None) ->
    source (pe_rp (w_pp W)) (w_stdin W) devtty src term -> dialogue term (str "Please enter passphrase") conf finished t ->
    filter noticed acts = unechoed term t -> (ok = true -> finished = true) -> interview W m s acts ok.
Lemma ask_interview W s m rp : ask W s (negb (is_enc m)) = Ok rp -> interview W m s (ro_acts rp) (match ro_pass rp with Some _ => true | None => false end).
Proof.
  unfold ask, passphrase_entry_readpass. set (b := match ro_pass rp with Some _ => true | None => false end).
  assert (forall conf devtty, readpass (pe_rp (w_pp W)) (w_stdin W) (str "Please enter passphrase") conf devtty = Ok rp ->
    (fst (method_of s) = PASSPHRASE_TTY_STDIN /\ devtty = 1%Z /\ conf = (if is_enc m then Some (str "Please confirm passphrase") else None) \/
     fst (method_of s) = PASSPHRASE_STDIN_ONCE /\ devtty = 0%Z /\ conf = None \/
     fst (method_of s) = PASSPHRASE_TTY_ONCE /\ devtty = 2%Z /\ conf = None) -> interview W m s (ro_acts rp) b) as HR.
  { intros conf devtty H HC.
    assert ((devtty = 2%Z /\ re_tty (pe_rp (w_pp W)) = None) \/ exists src term, source (pe_rp (w_pp W)) (w_stdin W) devtty src term) as [[H1 H2]|(src & term & HS)].
    { unfold source. destruct HC as [(_ & -> & _)|[(_ & -> & _)|(_ & -> & _)]]; destruct (re_tty (pe_rp (w_pp W))) as [t|]; try (right; do 2 eexists; left; repeat split; reflexivity);
        try (right; do 2 eexists; right; right; auto; fail); try (right; do 2 eexists; right; left; auto; fail). left. auto. }
    { subst devtty. cbn [readpass] in H. rewrite H2 in H. apply Ok_inj in H. apply I_failed; [rewrite <- H; reflexivity|unfold b; rewrite <- H; reflexivity]. }
    destruct (C56_dialogue _ _ _ _ _ _ _ _ HS H) as [(K1 & K2 & _)|(finished & t & K1 & K2 & K3)].
    - apply I_failed; [exact K1|unfold b; rewrite K2; reflexivity].
    - eapply I_asked; eauto. unfold b. intros K. apply K3. intros K4. rewrite K4 in K. discriminate K. }
  destruct (fst (method_of s)) eqn:EM; intros H.
  - apply Ok_inj in H. apply I_failed; [rewrite <- H; reflexivity|unfold b; rewrite <- H; reflexivity].
  - apply (HR _ _ H). left. destruct m; auto.
  - apply (HR _ _ H). auto.
  - apply (HR _ _ H). auto.
  - apply I_silent; [left; exact EM| | |]; intros *; intros K; destruct (pe_getenv (w_pp W) (snd (method_of s))); [destruct (pe_strdup (w_pp W))| |destruct (pe_strdup (w_pp W))| |destruct (pe_strdup (w_pp W))|];
      apply Ok_inj in H; rewrite <- H in K; cbn in K; repeat destruct K as [K|K]; try discriminate K; exact K.
  - assert (forall a, In a (ro_acts rp) -> match a with A_prompt _ | A_echo_off | A_echo_back => False | _ => True end) as HA.
    { intros a K. unfold readpass_file in H. destruct (pe_file (w_pp W) (snd (method_of s))) as [f|].
      2:{ apply Ok_inj in H. rewrite <- H in K. cbn [ro_acts In] in K. repeat destruct K as [K|K]; try subst a; try exact I; destruct K. }
      destruct (fgets MAXPASSLEN f) as [line s1]. destruct line as [x|]; [|destruct (ferror s1)]; try (destruct (fst (fgetc s1)));
        destruct (re_fclose (pe_rp (w_pp W))); try destruct (pe_strdup (w_pp W));
        apply Ok_inj in H; rewrite <- H in K; cbn [ro_acts app In] in K; repeat destruct K as [K|K]; try subst a; try exact I; destruct K. }
    apply I_silent; [right; exact EM| | |].
    + intros t K. exact (HA _ K).
    + intros K. exact (HA _ K).
    + intros K. exact (HA _ K).
Qed.
Theorem C56_program : forall W prog m rest r acts ok, Forall cstring rest -> main W (prog :: mode_word m :: rest) = Ok r -> In (E_pass acts ok) (pr_events r) ->
  exists s i o, m <> Info /\ requested W m rest s i o /\ interview W m s acts ok.
Proof.
  intros W prog m rest r acts ok HC E HI. destruct (mode_cases W prog m rest r HC E) as [(evs & H & _ & HM)|(s & i & o & HQ & HO)].
  - exfalso. apply Ok_inj in H. subst r. cbn [pr_events] in HI. rewrite Forall_forall in HM. exact (HM _ HI).
  - exists s, i, o. destruct m; cbn [operation] in HO.
    + destruct (enc_dec_entry _ _ _ _ _ _ _ _ HO HI) as (rp & EA & -> & ->). split; [discriminate|]. split; [exact HQ|]. apply ask_interview, EA.
    + destruct (enc_dec_entry _ _ _ _ _ _ _ _ HO HI) as (rp & EA & -> & ->). split; [discriminate|]. split; [exact HQ|]. apply ask_interview, EA.
    + exfalso. revert HI. apply other_in. unfold scrypt_mode_info in HO. destruct (match i with None => Some (w_stdin W) | Some n => w_open_in W n end) as [fi|].
      * apply bind_inv in HO. destruct HO as ([[rc ms] fi2] & _ & HO). destruct (is_ok rc); cbn [negb] in HO.
        -- apply Ok_inj in HO. subst r. cbn [pr_events]. destruct i; oth.
        -- apply bind_inv in HO. destruct HO as (pe & EPE & HO). apply Ok_inj in HO. subst r. cbn [fail pr_events]. pose proof (other_error _ _ _ _ EPE). destruct i; oth.
      * apply Ok_inj in HO. subst r. cbn [fail pr_events]. oth.
Qed.
(** A confirmation that differs, then a dialogue that succeeds. *)
Definition ex_terminal : rp_env := mk_rpe (Some (mk_in [([97; 10], false); ([98; 10], false); ([97; 10], false); ([97; 10], false)] false)) true false true true true true.
Example C56_hyps : exists o, source ex_terminal (mk_in [] false) 1 (mk_in [([97; 10], false); ([98; 10], false); ([97; 10], false); ([97; 10], false)] false) true /\
  readpass ex_terminal (mk_in [] false) (str "P") (Some (str "C")) 1 = Ok o /\ ro_pass o = Some [97] /\
  filter noticed (ro_acts o) =
    [A_echo_off; A_prompt (str "P: "); A_read; A_prompt (str "C: "); A_read; mismatch; A_prompt (str "P: "); A_read; A_prompt (str "C: "); A_read; A_echo_back].
Proof. eexists. split; [right; right; auto|]. split; [vm_compute; reflexivity|]. split; vm_compute; reflexivity. Qed.
(** A run of the program that asks at a terminal and then finds the input is no scrypt file. *)
Example C56_hyps_program : exists W r acts, main W (map str ["scrypt"; "dec"; "a"]%string) = Ok r /\ In (E_pass acts true) (pr_events r) /\
  filter noticed acts = [A_echo_off; A_prompt (str "Please enter passphrase: "); A_read; A_echo_back].
Proof.
  exists (mk_world ex_machine ex_cfg ex_lib ex_heap ex_call (mk_ppe ex_terminal (fun _ => None) (fun _ => None) true) (mk_in [] false) (mk_out [] [] false)
    (fun n => Some (mk_in [([1; 2; 3], false)] false)) (fun _ => None) true true (fun _ => (d0, 0%nat, None)) 0 true true).
  do 2 eexists. split; [vm_compute; reflexivity|]. split; [right; left; reflexivity|]. vm_compute. reflexivity.
Qed.
Definition Prop_dialogue_all := (C56_dialogue, C56_echo, C56_program).
Print Assumptions Prop_dialogue_all.
