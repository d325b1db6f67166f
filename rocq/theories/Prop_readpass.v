(** C40-C42: passphrase entry. *)
From Coq Require Import String.
From Verif Require Import Base SpecAscii M_stdio SpecStream P_stdio M_readpass SpecPass P_signals P_readpass.
Local Open Scope list_scope.

(** ** C40: the argument of --passphrase *)
Lemma starts_with_spec p s : starts_with p s = true <-> exists x, s = p ++ x.
Proof.
  unfold starts_with. rewrite list_eqb_spec. split.
  - intros H. exists (skipn (List.length p) s). rewrite <- H at 1. rewrite firstn_skipn. reflexivity.
  - intros [x ->]. rewrite firstn_app, firstn_all, Nat.sub_diag. cbn [firstn]. apply app_nil_r.
Qed.
Theorem C40_parse : forall arg m a, passphrase_entry_parse arg = Some (m, a) <-> method_syntax arg m a.
Proof.
  intros arg m a. split.
  - unfold passphrase_entry_parse. destruct (strchr 58 arg) as [p|] eqn:Ep; [|discriminate].
    assert (forall x, arg = str "env:" ++ x -> skipn 1 p = x) as Hv. { intros x ->. cbv in Ep. injection Ep as <-. reflexivity. }
    assert (forall x, arg = str "file:" ++ x -> skipn 1 p = x) as Hf. { intros x ->. cbv in Ep. injection Ep as <-. reflexivity. }
    assert (forall x, arg = str "dev:" ++ x -> skipn 1 p = x) as Hd. { intros x ->. cbv in Ep. injection Ep as <-. reflexivity. }
    set (q := skipn 1 p) in *.
    assert ((if starts_with (str "env:") arg then Some (PASSPHRASE_ENV, q)
             else if starts_with (str "file:") arg then Some (PASSPHRASE_FILE, q) else None) = Some (m, a) -> method_syntax arg m a) as HO.
    { destruct (starts_with (str "env:") arg) eqn:E1.
      - apply starts_with_spec in E1. destruct E1 as [x E1]. intros H. injection H as <- <-. rewrite (Hv x E1), E1. constructor.
      - destruct (starts_with (str "file:") arg) eqn:E2; [|discriminate].
        apply starts_with_spec in E2. destruct E2 as [x E2]. intros H. injection H as <- <-. rewrite (Hf x E2), E2. constructor. }
    destruct (starts_with (str "dev:") arg) eqn:E3; [|exact HO].
    apply starts_with_spec in E3. destruct E3 as [x E3]. specialize (Hd x E3).
    destruct (list_eqb q (str "tty-stdin")) eqn:E4.
    { apply list_eqb_spec in E4. intros H. injection H as <- <-. rewrite E3, <- Hd, E4. apply ms_tty_stdin. }
    destruct (list_eqb q (str "stdin-once")) eqn:E5.
    { apply list_eqb_spec in E5. intros H. injection H as <- <-. rewrite E3, <- Hd, E5. apply ms_stdin_once. }
    destruct (list_eqb q (str "tty-once")) eqn:E6; [|exact HO].
    apply list_eqb_spec in E6. intros H. injection H as <- <-. rewrite E3, <- Hd, E6. apply ms_tty_once.
  - intros H. destruct H; reflexivity.
Qed.
(** What each method delivers: the environment variable or file as it is, and
    for the terminal methods whatever readpass reads from the right place. *)
Theorem C40_env : forall E stdin arg pr cp once o, passphrase_entry_readpass E stdin PASSPHRASE_ENV arg pr cp once = Ok o ->
  ro_stdin o = stdin /\ ro_pass o = (if pe_strdup E then pe_getenv E arg else None).
Proof.
  intros E stdin arg pr cp once o. unfold passphrase_entry_readpass.
  destruct (pe_getenv E arg); [destruct (pe_strdup E)|destruct (pe_strdup E)]; intros H; injection H as <-; split; reflexivity.
Qed.
(** tty-stdin prefers the terminal, and then leaves standard input alone;
    tty-once never reads standard input; stdin-once never opens the terminal. *)
Definition same_but_tty (E E' : rp_env) : Prop :=
  re_stdin_isatty E = re_stdin_isatty E' /\ re_tcgetattr E = re_tcgetattr E' /\ re_tcsetattr E = re_tcsetattr E' /\ re_strdup E = re_strdup E'.
Theorem C40_source : forall E stdin arg pr cp once,
  (forall o t m, m = PASSPHRASE_TTY_STDIN \/ m = PASSPHRASE_TTY_ONCE -> re_tty (pe_rp E) = Some t ->
     passphrase_entry_readpass E stdin m arg pr cp once = Ok o ->
     ro_stdin o = stdin /\
     forall stdin', passphrase_entry_readpass E stdin' m arg pr cp once = Ok (mk_rpo (ro_pass o) stdin' (ro_acts o))) /\
  (forall o, re_tty (pe_rp E) = None -> passphrase_entry_readpass E stdin PASSPHRASE_TTY_ONCE arg pr cp once = Ok o ->
     ro_pass o = None /\ ro_stdin o = stdin) /\
  (forall E', same_but_tty (pe_rp E) (pe_rp E') ->
     passphrase_entry_readpass E stdin PASSPHRASE_STDIN_ONCE arg pr cp once = passphrase_entry_readpass E' stdin PASSPHRASE_STDIN_ONCE arg pr cp once).
Proof.
  intros E stdin arg pr cp once. split; [|split].
  - intros o t m Hm Ht H.
    assert (exists conf, forall si, passphrase_entry_readpass E si m arg pr cp once = readpass_from (pe_rp E) true t si pr conf) as [conf HC].
    { destruct Hm as [-> | ->]; eexists; intros si; cbn [passphrase_entry_readpass readpass]; rewrite Ht; reflexivity. }
    rewrite HC in H. unfold readpass_from in H.
    assert (forall r, readpass_from (pe_rp E) true t stdin pr conf = Ok r -> ro_stdin r = stdin /\
              forall si, readpass_from (pe_rp E) true t si pr conf = Ok (mk_rpo (ro_pass r) si (ro_acts r))) as HG.
    { intros r. unfold readpass_from. repeat match goal with |- context [if ?b then Ok _ else _] => destruct b end;
      try destruct (readpass_retry _ _ _ _ _) as [[[[x|] s'] tr]|]; try discriminate;
      repeat match goal with |- context [if ?b then Ok _ else _] => destruct b end; intros Hr; injection Hr as <-; split; reflexivity. }
    destruct (HG o H) as [H1 H2]. split; [exact H1|]. intros si. rewrite HC. apply H2.
  - intros o Ht. cbn [passphrase_entry_readpass readpass]. rewrite Ht. intros H. injection H as <-. split; reflexivity.
  - intros E' (H1 & H2 & H3 & H4). cbn [passphrase_entry_readpass readpass]. unfold readpass_from. rewrite H1, H2, H3, H4. reflexivity.
Qed.

(** ** C41: passphrases typed at a terminal or piped into standard input *)
(** A call is never undefined, and what it returns has no NUL, CR or LF and
    fewer than 2048 bytes. *)
Theorem C41_total : forall E stdin pr conf devtty, exists o, readpass E stdin pr conf devtty = Ok o /\
  forall p, ro_pass o = Some p -> (List.length p < N.to_nat 2048)%nat /\ ~ In 0 p /\ ~ In 13 p /\ ~ In 10 p.
Proof.
  intros E stdin pr conf devtty.
  assert (forall tty s, exists o, readpass_from E tty s stdin pr conf = Ok o /\
    forall p, ro_pass o = Some p -> (List.length p < N.to_nat 2048)%nat /\ ~ In 0 p /\ ~ In 13 p /\ ~ In 10 p) as HF.
  { intros tty s. unfold readpass_from.
    match goal with |- context [if ?b then Ok _ else _] => destruct b end; [eexists; split; [reflexivity|discriminate]|].
    match goal with |- context [if ?b then Ok _ else _] => destruct b end; [eexists; split; [reflexivity|discriminate]|].
    set (u := if tty then _ else _). destruct (retry_total u pr conf (in_size s) s (le_n _)) as [[[[x|] s'] tr] Er]; rewrite Er.
    - destruct (retry_some _ _ _ _ _ _ _ _ Er) as [HL _]. destruct (re_strdup E); eexists; (split; [reflexivity|]); [|discriminate].
      intros p Hp. injection Hp as <-. destruct (crlf_text (cstr x)) as (T1 & T2 & r & T3 & _). destruct (cstr_spec x) as (Z & r' & Z2 & _).
      repeat split.
      + apply (f_equal (@List.length N)) in T3, Z2. rewrite app_length in T3, Z2. unfold MAXPASSLEN in HL. lia.
      + intros Hi. apply Z. rewrite T3. apply in_or_app. left. exact Hi.
      + exact T1.
      + exact T2.
    - eexists; split; [reflexivity|discriminate]. }
  unfold readpass. destruct devtty as [|[q|[q|q|]|]|q]; try (eexists; split; [reflexivity|discriminate]).
  - apply HF.
  - destruct (re_tty E) as [t|]; [apply HF|eexists; split; [reflexivity|discriminate]].
  - destruct (re_tty E) as [t|]; apply HF.
Qed.
(** Whatever is read and whatever goes wrong: a passphrase returned was read
    from the source; with confirmation the same bytes were read twice in
    succession (up to a NUL, where C strings end). *)
Theorem C41_confirmed : forall E stdin pr conf devtty o p, readpass E stdin pr conf devtty = Ok o -> ro_pass o = Some p ->
  exists src a l q b, (src = stdin \/ re_tty E = Some src) /\ all_data src = a ++ l ++ q ++ b /\ line_text (cstr l) p /\
  (conf <> None -> cstr q = cstr l) /\ (conf = None -> a = [] /\ q = []).
Proof.
  intros E stdin pr conf devtty o p Ho Hp.
  assert (forall tty s, readpass_from E tty s stdin pr conf = Ok o -> exists a l q b, all_data s = a ++ l ++ q ++ b /\ line_text (cstr l) p /\
    (conf <> None -> cstr q = cstr l) /\ (conf = None -> a = [] /\ q = [])) as HF.
  { intros tty s H. unfold readpass_from in H.
    repeat match type of H with context [if ?b then Ok _ else _] => destruct b; [injection H as <-; discriminate Hp|] end.
    set (u := if tty then _ else _) in H. destruct (readpass_retry (in_size s) u pr conf s) as [[[[x|] s'] tr]|] eqn:Er;
      [|injection H as <-; discriminate Hp|discriminate H].
    destruct (re_strdup E); injection H as <-; [|discriminate Hp]. injection Hp as <-.
    destruct (retry_some _ _ _ _ _ _ _ _ Er) as (_ & a & q & b & H1 & _ & H3). exists a, x, q, b. split; [exact H1|]. split; [apply crlf_text|].
    destruct conf; split; intros HH; try congruence; exact H3. }
  unfold readpass in Ho. destruct devtty as [|[k|[k|k|]|]|k]; try (injection Ho as <-; discriminate Hp).
  - destruct (HF _ _ Ho) as (a & l & q & b & H). exists stdin, a, l, q, b. split; [left; reflexivity|exact H].
  - destruct (re_tty E) as [t|] eqn:Et; [|injection Ho as <-; discriminate Hp].
    destruct (HF _ _ Ho) as (a & l & q & b & H). exists t, a, l, q, b. split; [right; reflexivity|exact H].
  - destruct (re_tty E) as [t|] eqn:Et; destruct (HF _ _ Ho) as (a & l & q & b & H).
    + exists t, a, l, q, b. split; [right; reflexivity|exact H].
    + exists stdin, a, l, q, b. split; [left; reflexivity|exact H].
Qed.
(** Ordinary input: [src] delivers the text [d], without faults, in any pieces.  The
    terminal's settings can be changed and memory is available. *)
Definition source (E : rp_env) (stdin : instream) (devtty : Z) (src : instream) (isatty : bool) : Prop :=
  (devtty = 0%Z /\ src = stdin /\ isatty = re_stdin_isatty E) \/
  (devtty = 1%Z /\ re_tty E = None /\ src = stdin /\ isatty = re_stdin_isatty E) \/
  ((devtty = 1%Z \/ devtty = 2%Z) /\ re_tty E = Some src /\ isatty = re_tty_isatty E).
Definition works (E : rp_env) : Prop := re_tcgetattr E = true /\ re_tcsetattr E = true /\ re_strdup E = true.
Lemma source_readpass E stdin pr conf devtty src isatty : source E stdin devtty src isatty ->
  exists tty, readpass E stdin pr conf devtty = readpass_from E tty src stdin pr conf /\ isatty = (if tty then re_tty_isatty E else re_stdin_isatty E) /\
  (devtty = 0%Z -> tty = false).
Proof.
  intros [(-> & -> & ->)|[(-> & Ht & -> & ->)|([-> | ->] & Ht & ->)]]; cbn [readpass]; rewrite ?Ht.
  - exists false. repeat split.
  - exists false. repeat split.
  - exists true. repeat split. discriminate.
  - exists true. repeat split. discriminate.
Qed.
Lemma works_from E tty src stdin pr conf : works E ->
  readpass_from E tty src stdin pr conf =
  match readpass_retry (in_size src) (if tty then re_tty_isatty E else re_stdin_isatty E) pr conf src with
  | None => UB
  | Some (r, s, tr) => Ok (mk_rpo (match r with Some x => Some (before_crlf (cstr x)) | None => None end) (if tty then stdin else s)
      (A_clear :: map A_catch badsigs ++ (if (if tty then re_tty_isatty E else re_stdin_isatty E) then [A_echo_off] else []) ++ tr
       ++ (if (if tty then re_tty_isatty E else re_stdin_isatty E) then [A_echo_back] else [])
       ++ (match r with Some _ => resetsigs ++ (if tty then A_close :: (if re_fclose E then [] else [A_warn (str "fclose")]) else [])
           | None => (if tty then A_close :: (if re_fclose E then [] else [A_warn (str "fclose")]) else []) ++ resetsigs end) ++ [A_zero]))
  end.
Proof.
  intros (H1 & H2 & H3). unfold readpass_from. rewrite H1, H2, H3. cbn [negb]. rewrite !andb_false_r.
  destruct (readpass_retry _ _ _ _ _) as [[[[x|] s'] tr]|]; [| |reflexivity]; do 2 f_equal; cbn [app]; rewrite <- ?app_assoc; reflexivity.
Qed.
(** Asked once: the first line's text (an empty input is an error); the rest of
    standard input stays there. *)
Theorem C41_once : forall E stdin pr devtty src tt d, source E stdin devtty src tt -> works E -> delivered d src ->
  match lines d with
  | [] => exists o, readpass E stdin pr None devtty = Ok o /\ ro_pass o = None
  | l :: ls => (List.length l < N.to_nat 2048)%nat -> ~ In 0 l ->
      exists o p, readpass E stdin pr None devtty = Ok o /\ ro_pass o = Some p /\ line_text l p /\
      (devtty = 0%Z -> delivered (concat ls) (ro_stdin o))
  end.
Proof.
  intros E stdin pr devtty src tt d Hs Hw Hd. destruct (source_readpass E stdin pr None devtty src tt Hs) as (tty & HR & _ & Hsrc).
  rewrite HR, (works_from _ _ _ _ _ _ Hw). destruct (lines d) as [|l ls] eqn:El; unfold in_size at 1; cbn [readpass_retry].
  - rewrite (lines_nil _ El) in Hd. destruct (fgets_end _ src maxpass Hd) as (s' & -> & _). eexists; split; reflexivity.
  - intros HL H0. destruct (fgets_line _ d src l ls maxpass Hd El HL) as (s' & -> & Hd').
    eexists _, _. split; [reflexivity|]. split; [reflexivity|]. split; [rewrite (cstr_id l H0); apply crlf_text|].
    intros Hdt. rewrite (Hsrc Hdt). exact Hd'.
Qed.
(** Asked twice, on lines shorter than 2047 bytes: the first of the pairs (1,2),
    (3,4), ... with equal lines; if there is none, failure. *)
Theorem C41_twice : forall E stdin pr cp devtty src tt d, source E stdin devtty src tt -> works E -> delivered d src ->
  Forall (fun l => (List.length l < N.to_nat 2048)%nat) (lines d) -> ~ In 0 d ->
  exists o, readpass E stdin pr (Some cp) devtty = Ok o /\
  (forall p, ro_pass o = Some p <-> exists l, first_match (lines d) l /\ line_text l p).
Proof.
  intros E stdin pr cp devtty src tt d Hs Hw Hd HL H0. destruct (source_readpass E stdin pr (Some cp) devtty src tt Hs) as (tty & HR & _ & _).
  rewrite HR, (works_from _ _ _ _ _ _ Hw). set (u := if tty then re_tty_isatty E else re_stdin_isatty E). clearbody u.
  destruct (retry_lines u pr cp (in_size src) d src Hd HL H0 (le_n _)) as [R1 R2].
  assert ((exists l, first_match (lines d) l) \/ (forall l, ~ first_match (lines d) l)) as [[l Hl]|HN].
  { assert (forall n ls, (List.length ls <= n)%nat -> (exists l, first_match ls l) \/ (forall l, ~ first_match ls l)) as HD.
    { induction n as [|n IH]; intros ls Hn.
      - right. intros l Hl. destruct ls; [inversion Hl|cbn in Hn; lia].
      - destruct ls as [|l1 [|l2 ls]]; [right; intros l Hl; inversion Hl|right; intros l Hl; inversion Hl|].
        destruct (list_eqb l1 l2) eqn:Ec; [apply list_eqb_spec in Ec; subst l2; left; exists l1; constructor|]. apply list_eqb_false in Ec.
        destruct (IH ls) as [[l Hl]|HN]; [cbn in Hn; lia|left; exists l; constructor; assumption|].
        right. intros l Hl. inversion Hl; subst; [congruence|]. eapply HN; eassumption. }
    exact (HD _ _ (le_n _)). }
  - destruct (R1 l Hl) as (s' & tr & ->). eexists; split; [reflexivity|]. intros p. cbn [ro_pass].
    assert (~ In 0 l) as Z.
    { intros Hi. apply H0. rewrite <- (lines_concat d). clear - Hl Hi. revert Hl. generalize (lines d). intros ls Hl. apply in_concat. exists l. split; [|exact Hi].
      induction Hl; [left; reflexivity|right; right; auto]. }
    rewrite (cstr_id l Z). split.
    + intros H. injection H as <-. exists l. split; [exact Hl|apply crlf_text].
    + intros (l' & Hl' & Ht). f_equal.
      assert (forall ls a b, first_match ls a -> first_match ls b -> a = b) as HU.
      { intros ls a b Ha. revert b. induction Ha; intros b Hb; inversion Hb; subst; try congruence. apply IHHa. assumption. }
      rewrite (HU _ _ _ Hl' Hl) in Ht. eapply line_text_unique; [apply crlf_text|exact Ht].
  - destruct (R2 HN) as (s' & tr & ->). eexists; split; [reflexivity|]. intros p. split; [discriminate|]. intros (l & Hl & _). destruct (HN l Hl).
Qed.
(** The length limit matters: one overlong line, typed once, is its own confirmation. *)
Theorem C41_long_line_refuted :
  let d := repeat 97 (N.to_nat 4094) ++ [10] in
  let E := mk_rpe None false false true true true true in
  exists o, List.length (lines d) = 1%nat /\ readpass E (mk_in [(d, false)] false) [] (Some []) 1 = Ok o /\
  ro_pass o = Some (repeat 97 (N.to_nat 2047)).
Proof. eexists. split; [vm_compute; reflexivity|]. split; [vm_compute; reflexivity|]. vm_compute. reflexivity. Qed.
(** And so does the absence of NUL bytes: lines that differ after a NUL count as equal. *)
Theorem C41_nul_refuted :
  exists o, readpass (mk_rpe None false false true true true true) (mk_in [([97; 0; 98; 10; 97; 0; 99; 10], false)] false) [] (Some []) 1 = Ok o /\
  ro_pass o = Some [97].
Proof. eexists. split; [vm_compute; reflexivity|]. reflexivity. Qed.

Lemma Ok_inj {A} (a b : A) : Ok a = Ok b -> a = b.
Proof. congruence. Qed.
(** Signals.  However the call goes and whenever signals arrive: a signal that
    readpass catches takes effect only with the terminal as it was found
    (provided tcsetattr can restore it); no signal that arrived is lost; at the
    end all dispositions and the terminal are as they were found. *)
Theorem C41_signals : forall restore_ok arr E stdin pr conf devtty o m evs,
  readpass E stdin pr conf devtty = Ok o -> course restore_ok arr 0 (ro_acts o) as_found [] = (m, evs) ->
  (restore_ok = true -> forall s t, In (Delivered s t) evs -> In s badsigs -> t = Term_as_found) /\
  (forall a s b, evs = a ++ Arrived s :: b -> exists t, In (Delivered s t) b) /\
  (forall s, m_caught m s = false) /\
  (restore_ok = true -> m_term m = Term_as_found).
Proof.
  intros ok arr E stdin pr conf devtty o m evs Ho HC.
  assert (forall tty src, readpass_from E tty src stdin pr conf = Ok o -> seq ok (clean ok) (ro_acts o) (clean ok)) as HF.
  { clear HC m evs Ho. intros tty src. unfold readpass_from.
    set (u := if tty then re_tty_isatty E else re_stdin_isatty E).
    set (cl := if tty then A_close :: _ else []).
    assert (Forall quiet cl) as Qcl. { unfold cl. destruct tty; [|constructor]. destruct (re_fclose E); repeat constructor. }
    assert (forall w, seq ok (clean ok) ((A_clear :: map A_catch badsigs) ++ [A_warn w] ++ cl ++ resetsigs ++ [A_zero]) (clean ok)) as Hearly.
    { intros w. eapply seq_app; [apply seq_start|]. eapply seq_app; [apply seq_quiet; [apply catching_closed|repeat constructor]|].
      eapply seq_app; [apply seq_quiet; [apply catching_closed|exact Qcl]|]. eapply seq_app; [apply seq_resetsigs|].
      apply seq_quiet; [apply clean_closed|repeat constructor]. }
    assert (forall tr, Forall quiet tr -> seq ok (catching ok badsigs) ((if u then [A_echo_off] else []) ++ tr ++ (if u then [A_echo_back] else [])) (catching ok badsigs)) as Hmid.
    { intros tr Qtr. destruct u.
      - eapply seq_app; [apply seq_off|]. eapply seq_app; [apply seq_quiet; [apply caught_all_closed|exact Qtr]|]. apply seq_back.
      - eapply seq_app; [apply seq_nil|]. eapply seq_app; [apply seq_quiet; [apply catching_closed|exact Qtr]|]. apply seq_nil. }
    destruct (u && negb (re_tcgetattr E)); [intros H; apply Ok_inj in H; subst o; apply Hearly|].
    destruct (u && negb (re_tcsetattr E)); [intros H; apply Ok_inj in H; subst o; apply Hearly|].
    destruct (readpass_retry (in_size src) u pr conf src) as [[[[x|] s'] tr]|] eqn:Er; [| |discriminate];
      pose proof (Hmid tr (retry_quiet _ _ _ _ _ _ _ _ Er)) as Hm.
    - assert (forall tl, Forall quiet tl -> seq ok (clean ok) ((A_clear :: map A_catch badsigs) ++ ((if u then [A_echo_off] else []) ++ tr ++ (if u then [A_echo_back] else [])) ++ resetsigs ++ cl ++ tl) (clean ok)) as HG.
      { intros tl Qtl. eapply seq_app; [apply seq_start|]. eapply seq_app; [exact Hm|]. eapply seq_app; [apply seq_resetsigs|].
        apply seq_quiet; [apply clean_closed|]. apply Forall_app. split; assumption. }
      destruct (re_strdup E); intros H; apply Ok_inj in H; subst o; cbn [ro_acts].
      + specialize (HG [A_zero]). repeat rewrite <- app_assoc in HG. repeat rewrite <- app_assoc. apply HG. repeat constructor.
      + specialize (HG [A_warn (str "Cannot allocate memory"); A_zero]). repeat rewrite <- app_assoc in HG. repeat rewrite <- app_assoc. apply HG. repeat constructor.
    - intros H; apply Ok_inj in H; subst o; cbn [ro_acts].
      assert (seq ok (clean ok) ((A_clear :: map A_catch badsigs) ++ ((if u then [A_echo_off] else []) ++ tr ++ (if u then [A_echo_back] else [])) ++ cl ++ resetsigs ++ [A_zero]) (clean ok)) as HG.
      { eapply seq_app; [apply seq_start|]. eapply seq_app; [exact Hm|]. eapply seq_app; [apply seq_quiet; [apply catching_closed|exact Qcl]|].
        eapply seq_app; [apply seq_resetsigs|]. apply seq_quiet; [apply clean_closed|repeat constructor]. }
      repeat rewrite <- app_assoc in HG. repeat rewrite <- app_assoc. exact HG. }
  assert (seq ok (clean ok) (ro_acts o) (clean ok)) as HS.
  { assert (forall acts, Forall quiet acts -> seq ok (clean ok) acts (clean ok)) as HQ by (intros acts HA; apply seq_quiet; [apply clean_closed|exact HA]).
    unfold readpass in Ho. destruct devtty as [|[k|[k|k|]|]|k]; try (injection Ho as <-; apply HQ; repeat constructor).
    - apply (HF _ _ Ho).
    - destruct (re_tty E) as [t|]; [apply (HF _ _ Ho)|injection Ho as <-; apply HQ; repeat constructor].
    - destruct (re_tty E) as [t|]; apply (HF _ _ Ho). }
  specialize (HS [] (clean ok) (hoare_nil ok _ (clean_closed ok))). rewrite app_nil_r in HS.
  destruct (HS arr 0%nat as_found [] m evs) as ((H1 & _) & H2 & H3 & H4).
  - split; [|split; [intros _; reflexivity|split; [reflexivity|intros s; apply answered_nil]]].
    split; [intros s t []|]. split; [intros s; left; apply answered_nil|]. split; [intros Ht; discriminate Ht|intros s Hs; discriminate Hs].
  - exact HC.
  - split; [intros Hok s t Hin Hb; exact (H1 s t Hin Hb Hok)|]. split; [intros a s b Hab; exact (H4 s a b Hab)|]. split; [exact H3|exact H2].
Qed.
(** Signals that readpass does not catch (SIGUSR1, say) can find echo switched off. *)
Theorem C41_other_signal_refuted : exists arr E stdin o m evs,
  readpass E stdin [] None 1 = Ok o /\ course true arr 0 (ro_acts o) as_found [] = (m, evs) /\
  In (Delivered (S_other 10) Term_noecho) evs.
Proof.
  exists (fun i => if Nat.eqb i 12 then [S_other 10] else []), (mk_rpe None false true true true true true), (mk_in [([97; 10], false)] false).
  eexists _, _, _. split; [vm_compute; reflexivity|]. split; [vm_compute; reflexivity|]. cbn. auto.
Qed.
(** Both buffers are wiped on every path, after the last thing read. *)
Theorem C41_wiped : forall E stdin pr conf devtty o, readpass E stdin pr conf devtty = Ok o ->
  exists acts, ro_acts o = acts ++ [A_zero].
Proof.
  intros E stdin pr conf devtty o Ho.
  assert (forall (a : list act) w x, exists acts, a ++ [w; x] = acts ++ [x]) as H2. { intros a w x. exists (a ++ [w]). rewrite <- app_assoc. reflexivity. }
  assert (forall tty src, readpass_from E tty src stdin pr conf = Ok o -> exists acts, ro_acts o = acts ++ [A_zero]) as HF.
  { intros tty src. unfold readpass_from.
    repeat match goal with |- context [if ?b then Ok _ else _] => destruct b end;
    try destruct (readpass_retry _ _ _ _ _) as [[[[x|] s'] tr]|]; try discriminate;
    repeat match goal with |- context [if ?b then Ok _ else _] => destruct b end; intros Hr; apply Ok_inj in Hr; subst o; cbn [ro_acts]; rewrite ?app_assoc; (eexists; reflexivity) || apply H2. }
  unfold readpass in Ho. destruct devtty as [|[k|[k|k|]|]|k]; try (injection Ho as <-; exists [A_warn (str "readpass does not support devtty")]; reflexivity).
  - exact (HF _ _ Ho).
  - destruct (re_tty E) as [t|]; [exact (HF _ _ Ho)|injection Ho as <-; exists [A_warn (str "fopen(/dev/tty)")]; reflexivity].
  - destruct (re_tty E) as [t|]; exact (HF _ _ Ho).
Qed.

(** ** C42: passphrase files *)
(** A file, read in any pieces without faults, is accepted exactly if it is
    shorter than 2048 bytes and has no second line; the passphrase is the text before
    the first CR, LF or NUL. *)
Theorem C42_file : forall d s name, delivered d s ->
  forall p, fst (readpass_file (Some s) true true name) = Some p <->
  (List.length d < N.to_nat 2048)%nat /\ (forall a b, d = a ++ 10 :: b -> b = []) /\ line_text (cstr d) p.
Proof.
  intros d s name Hd p. unfold readpass_file.
  destruct (fgets_delivered MAXPASSLEN d s maxpass Hd) as (s1 & E & Hd1). rewrite E.
  assert (ferror s1 = false) as Ef by (destruct Hd1 as [H _]; exact H). rewrite Ef.
  set (k := (MAXPASSLEN - 1)%nat) in *. 
  assert (forall k d, (rec_of k d = d <-> (List.length d <= k)%nat /\ (forall a b, d = a ++ 10 :: b -> b = []))) as HR.
  { clear. induction k as [|k IH]; intros d.
    - cbn [rec_of]. split; [intros <-; split; [cbn; lia|intros [|] b H; discriminate]|]. intros [H _]. destruct d; [reflexivity|cbn in H; lia].
    - destruct d as [|c t]; cbn [rec_of]; [split; [intros _; split; [cbn; lia|intros [|] b H; discriminate]|reflexivity]|].
      destruct (N.eqb_spec c 10) as [->|Hc].
      + split.
        * intros H. injection H as <-. split; [cbn; lia|]. intros [|x a] b H; [injection H as <-; reflexivity|]. injection H as _ H. destruct a; discriminate.
        * intros [_ H]. rewrite (H [] t eq_refl). reflexivity.
      + split.
        * intros H. assert (rec_of k t = t) as Ht by (injection H; auto). apply IH in Ht. destruct Ht as [H1 H2]. split; [cbn; lia|].
          intros [|x a] b Hx; [injection Hx as Hx _; congruence|]. injection Hx as <- Hx. eapply H2; exact Hx.
        * intros [H1 H2]. f_equal. apply IH. split; [cbn in H1; lia|]. intros a b Hx. apply (H2 (c :: a) b). rewrite Hx. reflexivity. }
  assert (forall k d, exists r, d = rec_of k d ++ r) as HP.
  { clear. induction k as [|k IH]; intros d; [exists d; reflexivity|]. destruct d as [|c t]; [exists []; reflexivity|]. cbn [rec_of].
    destruct (c =? newline); [exists t; reflexivity|]. destruct (IH t) as [r Hr]. exists r. cbn [app]. f_equal. exact Hr. }
  assert ((List.length d < N.to_nat 2048)%nat <-> (List.length d <= k)%nat) as HK by (unfold k, MAXPASSLEN; lia).
  assert (match (match d with [] => None | _ :: _ => Some (rec_of k d) end) with Some x => x | None => [] end = rec_of k d) as HM.
  { destruct d; [destruct k; reflexivity|reflexivity]. }
  destruct (skipn (List.length (rec_of k d)) d) as [|c t] eqn:Es.
  - assert (rec_of k d = d) as Ed. { destruct (HP k d) as [r Hr]. pose proof (skipn_exact (rec_of k d) r) as X. rewrite <- Hr in X. rewrite Es in X. subst r. rewrite app_nil_r in Hr. symmetry; exact Hr. }
    rewrite (fgetc_delivered_nil s1 Hd1). cbn [fst]. rewrite HM, Ed. pose proof Ed as Ed2. apply HR in Ed2.
    assert (fst (Some (before_crlf (cstr d)), [A_read; A_close; A_zero]) = Some p <-> line_text (cstr d) p) as HT.
    { cbn [fst]. split; [intros H; injection H as <-; apply crlf_text|]. intros H. f_equal. eapply line_text_unique; [apply crlf_text|exact H]. }
    destruct d as [|d0 d']; (etransitivity; [exact HT|]); rewrite HK; tauto.
  - destruct (fgetc_delivered_cons c t s1 Hd1) as (s2 & -> & _).
    assert (forall w, fst (@None bytes, w : list act) = Some p <-> (List.length d < N.to_nat 2048)%nat /\ (forall a b, d = a ++ 10 :: b -> b = []) /\ line_text (cstr d) p) as HN.
    { intros w. cbn [fst]. split; [discriminate|]. intros (H1 & H2 & _). apply HK in H1.
      assert (rec_of k d = d) as Ed by (apply HR; split; assumption). rewrite Ed, skipn_all in Es. discriminate. }
    cbn [fst]. destruct d as [|d0 d']; apply HN.
Qed.
(** For text files, this is the first line. *)
Corollary C42_text : forall t s name, ~ In 0 t -> ~ In 13 t -> ~ In 10 t -> (List.length t < N.to_nat 2046)%nat ->
  delivered t s \/ delivered (t ++ [10]) s \/ delivered (t ++ [13; 10]) s -> fst (readpass_file (Some s) true true name) = Some t.
Proof.
  intros t s name H0 H13 H10 HL H.
  assert (forall e, ~ In 0 e -> (e = [] \/ e = [10] \/ e = [13; 10]) -> delivered (t ++ e) s -> fst (readpass_file (Some s) true true name) = Some t) as HG.
  { intros e He0 He Hd. apply (C42_file _ s name Hd). split; [|split].
    - rewrite app_length. destruct He as [->|[->| ->]]; cbn [List.length]; lia.
    - assert (forall u a b, ~ In 10 u -> u ++ [10] = a ++ 10 :: b -> b = []) as HX.
      { intros u a b Hu Hx. destruct b as [|z b] using rev_ind; [reflexivity|]. exfalso. apply Hu.
        change (a ++ 10 :: b ++ [z]) with (a ++ (10 :: b) ++ [z]) in Hx. rewrite app_assoc in Hx. apply app_inj_tail in Hx. destruct Hx as [-> _].
        apply in_or_app. right. left. reflexivity. }
      intros a b Hx. destruct He as [->|[->| ->]].
      + rewrite app_nil_r in Hx. destruct H10. rewrite Hx. apply in_or_app. right. left. reflexivity.
      + eapply HX; eassumption.
      + change [13; 10] with ([13] ++ [10]) in Hx. rewrite app_assoc in Hx. eapply HX; [|exact Hx].
        intros Hi. apply in_app_or in Hi. destruct Hi as [Hi|[Hi|[]]]; [exact (H10 Hi)|discriminate].
    - rewrite cstr_id; [|intros Hi; apply in_app_or in Hi; destruct Hi; auto].
      split; [exact H13|]. split; [exact H10|]. exists e. split; [reflexivity|]. destruct He as [->|[->| ->]]; auto. }
  destruct H as [H|[H|H]].
  - apply (HG []); [intros []|auto|rewrite app_nil_r; exact H].
  - apply (HG [10]); [intros [Hx|[]]; discriminate|auto|exact H].
  - apply (HG [13; 10]); [intros [Hx|[Hx|[]]]; discriminate|auto|exact H].
Qed.
(** Any stream, with faults: a file that cannot be opened, an error before the
    first byte or a failing close gives no passphrase, and any passphrase
    given is text from the file. *)
Theorem C42_faults : forall f cl sd name,
  (f = None \/ cl = false \/ sd = false \/ (exists s t, f = Some s /\ i_pieces s = ([], true) :: t) -> fst (readpass_file f cl sd name) = None) /\
  (forall p, fst (readpass_file f cl sd name) = Some p -> exists s l r, f = Some s /\ all_data s = l ++ r /\ (List.length l < N.to_nat 2048)%nat /\ line_text (cstr l) p).
Proof.
  intros f cl sd name. split.
  - intros H. unfold readpass_file. destruct f as [s|]; [|reflexivity]. destruct H as [H|[->|[->|(s' & t & Hs & Ht)]]]; [discriminate| | |].
    + destruct (fgets MAXPASSLEN s) as [[l|] s1]; destruct (ferror s1); try reflexivity; destruct (fst (fgetc s1)); reflexivity.
    + destruct (fgets MAXPASSLEN s) as [[l|] s1]; destruct (ferror s1); try reflexivity; destruct (fst (fgetc s1)); try reflexivity; destruct cl; reflexivity.
    + injection Hs as <-. assert (fgets MAXPASSLEN s = (None, mk_in t true)) as ->.
      { unfold fgets, MAXPASSLEN. replace (N.to_nat 2048 - 1)%nat with (S (N.to_nat 2046)) by lia. cbn [fgets_loop]. unfold fgetc. rewrite Ht. reflexivity. }
      reflexivity.
  - intros p. unfold readpass_file. destruct f as [s|]; [|discriminate]. destruct (fgets MAXPASSLEN s) as [[l|] s1] eqn:Eg.
    + destruct (fgets_some _ _ _ _ maxpass Eg) as (H1 & H2 & _). assert (forall p, Some (before_crlf (cstr l)) = Some p -> exists s0 l r, Some s = Some s0 /\ all_data s0 = l ++ r /\ (List.length l < N.to_nat 2048)%nat /\ line_text (cstr l) p) as HG.
      { intros q H. injection H as <-. exists s, l, (all_data s1). repeat split; [exact H1|exact H2| | |]; apply crlf_text. }
      destruct (ferror s1); destruct (fst (fgetc s1)); try discriminate; destruct cl; try discriminate; destruct sd; try discriminate; apply HG.
    + destruct (ferror s1); [discriminate|]. destruct (fst (fgetc s1)); try discriminate; destruct cl; try discriminate; destruct sd; try discriminate;
      intros H; injection H as <-; exists s, [], (all_data s); repeat split; try apply crlf_text; unfold MAXPASSLEN; cbn; lia.
Qed.
(** Contrary to the documentation, the passphrase ends at a CR that no LF follows. *)
Theorem C42_cr_refuted : exists s, delivered [97; 13; 98; 10] s /\ fst (readpass_file (Some s) true true []) = Some [97].
Proof. eexists. split; [apply delivered_exists|]. vm_compute. reflexivity. Qed.
(** And a read error after the first 2047 bytes or the first line is taken for the end of the file. *)
Theorem C42_error_refuted : exists s, i_pieces s = [([97; 10], true); ([98; 10], false)] /\ stream_fails s = true /\
  fst (readpass_file (Some s) true true []) = Some [97].
Proof. exists (mk_in [([97; 10], true); ([98; 10], false)] false). split; [reflexivity|]. split; [reflexivity|]. vm_compute. reflexivity. Qed.

(** ** The hypotheses are met *)
Example C40_hyps : method_syntax (str "env:A:B") PASSPHRASE_ENV (str "A:B") /\ ~ exists m a, method_syntax (str "dev:tty-always") m a.
Proof.
  split; [exact (ms_env (str "A:B"))|]. intros (m & a & H). apply C40_parse in H. vm_compute in H. discriminate.
Qed.
Example C41_hyps :
  let E := mk_rpe (Some (mk_in [([112; 119; 13; 10; 120; 10], false); ([112; 119; 10], false); ([112; 119; 10], false)] false)) true false true true true true in
  exists src, source E (mk_in [] false) 1 src true /\ works E /\ delivered [112; 119; 13; 10; 120; 10; 112; 119; 10; 112; 119; 10] src /\
  first_match (lines [112; 119; 13; 10; 120; 10; 112; 119; 10; 112; 119; 10]) [112; 119; 10] /\ line_text [112; 119; 10] [112; 119].
Proof.
  eexists. split; [right; right; split; [left; reflexivity|split; reflexivity]|]. split; [repeat split|]. split; [split; [reflexivity|split; [repeat constructor; discriminate|reflexivity]]|].
  split; [apply fm_later; [discriminate|apply fm_here]|]. exact (crlf_text [112; 119; 10]).
Qed.
Example C41_signal_hyps :
  let E := mk_rpe None false true true true true true in
  exists o m evs, readpass E (mk_in [([97], true)] false) [] None 1 = Ok o /\
  course true (fun i => if Nat.eqb i 12 then [SIGINT] else []) 0 (ro_acts o) as_found [] = (m, evs) /\
  evs = [Arrived SIGINT; Delivered SIGINT Term_as_found].
Proof. eexists _, _, _. split; [vm_compute; reflexivity|]. split; [vm_compute; reflexivity|]. reflexivity. Qed.
Example C42_hyps : exists s, delivered [97; 98; 10] s /\ fst (readpass_file (Some s) true true []) = Some [97; 98].
Proof. eexists. split; [apply delivered_exists|]. vm_compute. reflexivity. Qed.

Definition Prop_readpass_all := (C40_parse, C40_env, C40_source, C41_total, C41_confirmed, C41_once, C41_twice, C41_long_line_refuted,
  C41_nul_refuted, C41_signals, C41_other_signal_refuted, C41_wiped, C42_file, C42_text, C42_faults, C42_cr_refuted, C42_error_refuted).
Print Assumptions Prop_readpass_all.
