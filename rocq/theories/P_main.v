(** The program's inputs and outputs, and facts about them. *)
From Coq Require Import String.
From Verif Require Import Base SpecAscii SpecBytes SpecStream P_scrypt M_machine M_double M_smix M_stdio P_stdio M_memlimit M_cpuperf M_strto M_params M_scryptenc SpecScryptenc
  M_getopt M_readpass M_print_error M_main SpecPass SpecCLI P_scrypt_ref P_scryptenc P_entropy M_entropy P_readpass Prop_readpass Prop_cli.
Local Open Scope list_scope.

(** All data a stream will ever deliver is some reasonable number of bytes. *)
Definition finite_stream (s : instream) : Prop := bytes_ok (all_data s) /\ N.of_nat (List.length (all_data s)) < 2 ^ 64.
(** A world that exists: size_t has 32 or 64 bits, what is read are bytes, the heap is
    consistent, the entropy source returns bytes. *)
Record sane (W : world) : Prop := mk_sane {
  sn_size : size_bits (m_szb (w_M W)); sn_heap : heap_ok (w_heap W);
  sn_ent : env_bytes (v_ent (w_env W)); sn_drbg : drbg_inv (lb_drbg (w_lb W));
  sn_stdin : finite_stream (w_stdin W);
  sn_files : forall n s, w_open_in W n = Some s -> finite_stream s;
  sn_tty : forall s, re_tty (pe_rp (w_pp W)) = Some s -> finite_stream s;
  sn_passfiles : forall n s, pe_file (w_pp W) n = Some s -> finite_stream s;
  sn_getenv : forall n v, pe_getenv (w_pp W) n = Some v -> bytes_ok v }.

(** ** The inputs of an operation *)
Definition input_stream (W : world) (i : option bytes) : option instream := match i with None => Some (w_stdin W) | Some n => w_open_in W n end.
Definition output_stream (W : world) (o : option bytes) : option outstream := match o with None => Some (w_stdout W) | Some n => w_open_out W n end.
Definition ask (W : world) (s : settings) (dec : bool) : res rp_out :=
  passphrase_entry_readpass (w_pp W) (w_stdin W) (fst (method_of s)) (snd (method_of s)) (str "Please enter passphrase") (str "Please confirm passphrase") dec.
(** [reads W s dec i passwd fi]: the passphrase entered is passwd, and fi is the
    input (if that is standard input: what is left of it). *)
Inductive reads (W : world) (s : settings) (dec : bool) (i : option bytes) (passwd : bytes) (fi : instream) : Prop :=
| reads_intro fi0 rp : input_stream W i = Some fi0 -> ask W s dec = Ok rp -> ro_pass rp = Some passwd ->
    fi = (match i with None => ro_stdin rp | Some _ => fi0 end) -> reads W s dec i passwd fi.

Lemma finite_instream s : finite_stream s -> instream_ok s.
Proof.
  intros [H1 H2]. unfold all_data in *. split.
  - unfold input_ok. apply Forall_forall. intros p Hp. unfold bytes_ok in *. rewrite Forall_forall in *. intros x Hx. apply H1.
    apply in_concat. exists (fst p). split; [apply in_map; exact Hp|exact Hx].
  - apply N.le_lt_trans with (2 := H2). unfold stream_data, no_errors. cbn [i_pieces].
    assert (forall ps : list (bytes * bool), (List.length (pieces_data (map (fun p => (fst p, false)) ps)) <= List.length (concat (map fst ps)))%nat) as HL.
    { induction ps as [|[d e] t IH]; [cbn; lia|]. cbn [map pieces_data fst concat]. rewrite !app_length. destruct d; cbn [List.length] in *; lia. }
    specialize (HL (i_pieces s)). lia.
Qed.
Lemma finite_suffix s s' a : all_data s = a ++ all_data s' -> finite_stream s -> finite_stream s'.
Proof.
  intros H [H1 H2]. unfold finite_stream. rewrite H in H1, H2. apply Forall_app in H1. rewrite app_length in H2. split; [apply H1|lia].
Qed.
Lemma fgets_suffix n s x s' : fgets n s = (x, s') -> exists a, all_data s = a ++ all_data s' /\ (forall l, x = Some l -> l = a).
Proof.
  unfold fgets. destruct (fgets_loop (n - 1) s) as [[y st] s1] eqn:E. destruct (fgets_loop_any _ _ _ _ _ E) as (H1 & _ & _ & H4 & _). intros H.
  exists y. assert (s' = s1) as -> by (destruct st as [[| |]|]; destruct y; injection H; congruence). split; [exact H1|].
  intros l ->. destruct st as [[| |]|]; destruct y; injection H; congruence.
Qed.
Lemma retry_suffix tty pr conf : forall fuel s r s' tr, readpass_retry fuel tty pr conf s = Some (r, s', tr) ->
  finite_stream s -> finite_stream s' /\ forall p, r = Some p -> bytes_ok p.
Proof.
  assert (forall s s1 x, fgets MAXPASSLEN s = (x, s1) -> finite_stream s -> finite_stream s1 /\ forall p, x = Some p -> bytes_ok p) as HF.
  { intros s s1 x E HS. destruct (fgets_suffix _ _ _ _ E) as (a & H1 & H2). split; [exact (finite_suffix _ _ _ H1 HS)|].
    intros p Hp. rewrite (H2 p Hp). destruct HS as [HS _]. rewrite H1 in HS. apply Forall_app in HS. apply HS. }
  induction fuel as [|fuel IH]; intros s r s' tr; [discriminate|]. cbn [readpass_retry].
  destruct (fgets MAXPASSLEN s) as [x s1] eqn:E1. intros E HS. destruct (HF _ _ _ E1 HS) as [F1 F2].
  destruct x as [x|].
  - destruct conf as [cp|].
    + destruct (fgets MAXPASSLEN s1) as [y s2] eqn:E2. destruct (HF _ _ _ E2 F1) as [F3 F4]. destruct y as [y|].
      * destruct (list_eqb (cstr x) (cstr y)).
        -- injection E as <- <- <-. split; [exact F3|]. intros p Hp. apply F2. exact Hp.
        -- destruct (readpass_retry fuel tty pr (Some cp) s2) as [[[r0 s3] tr0]|] eqn:E3; [|discriminate].
           injection E as <- <- <-. exact (IH _ _ _ _ E3 F3).
      * injection E as <- <- <-. split; [exact F3|]. intros p Hp. discriminate.
    + injection E as <- <- <-. split; [exact F1|exact F2].
  - injection E as <- <- <-. split; [exact F1|]. intros p Hp. discriminate.
Qed.
Lemma text_bytes x : bytes_ok x -> bytes_ok (before_crlf (cstr x)).
Proof.
  intros H. destruct (crlf_text (cstr x)) as (_ & _ & r & T3 & _). destruct (cstr_spec x) as (_ & r' & Z2 & _).
  assert (bytes_ok (cstr x)) as H1 by (rewrite Z2 in H; apply Forall_app in H; apply H). rewrite T3 in H1. apply Forall_app in H1. apply H1.
Qed.
Lemma readpass_finite E stdin pr conf devtty o : finite_stream stdin -> (forall s, re_tty E = Some s -> finite_stream s) ->
  readpass E stdin pr conf devtty = Ok o -> finite_stream (ro_stdin o) /\ forall p, ro_pass o = Some p -> bytes_ok p.
Proof.
  intros HS HT.
  assert (forall tty src, finite_stream src -> readpass_from E tty src stdin pr conf = Ok o ->
    finite_stream (ro_stdin o) /\ forall p, ro_pass o = Some p -> bytes_ok p) as HF.
  { intros tty src HSrc H. unfold readpass_from in H.
    match type of H with context [if ?b then Ok _ else _] => destruct b end. { apply Ok_inj in H. subst o. split; [exact HS|intros p Hp; discriminate]. }
    match type of H with context [if ?b then Ok _ else _] => destruct b end. { apply Ok_inj in H. subst o. split; [exact HS|intros p Hp; discriminate]. }
    set (u := if tty then _ else _) in H. destruct (readpass_retry (in_size src) u pr conf src) as [[[r s'] tr]|] eqn:Er; [|discriminate H].
    destruct (retry_suffix _ _ _ _ _ _ _ _ Er HSrc) as [F1 F2].
    destruct r as [x|].
    - destruct (re_strdup E); apply Ok_inj in H; subst o; cbn [ro_stdin ro_pass]; (split; [destruct tty; assumption|]); intros p Hp; [|discriminate].
      injection Hp as <-. apply text_bytes, F2. reflexivity.
    - apply Ok_inj in H. subst o. cbn [ro_stdin ro_pass]. split; [destruct tty; assumption|]. intros p Hp. discriminate. }
  unfold readpass. destruct devtty as [|[k|[k|k|]|]|k];
    try (intros H; apply Ok_inj in H; subst o; cbn [ro_stdin ro_pass]; split; [exact HS|intros p Hp; discriminate]).
  - apply HF, HS.
  - destruct (re_tty E) as [t|] eqn:Et; [apply HF, HT; reflexivity|].
    intros H; apply Ok_inj in H; subst o; cbn [ro_stdin ro_pass]; split; [exact HS|intros p Hp; discriminate].
  - destruct (re_tty E) as [t|] eqn:Et; [apply HF, HT; reflexivity|apply HF, HS].
Qed.
Lemma readpass_file_bytes f c d n p a : (forall s, f = Some s -> finite_stream s) -> readpass_file f c d n = (Some p, a) -> bytes_ok p.
Proof.
  intros HF. unfold readpass_file. destruct f as [s|]; [|discriminate]. specialize (HF s eq_refl).
  destruct (fgets MAXPASSLEN s) as [line s1] eqn:E1. destruct (fgets_suffix _ _ _ _ E1) as (b & H1 & H2).
  assert (forall x, line = Some x -> bytes_ok x) as HB. { intros x Hx. rewrite (H2 x Hx). destruct HF as [HF _]. rewrite H1 in HF. apply Forall_app in HF. apply HF. }
  destruct line as [line|].
  - destruct (fst (fgetc s1)); [discriminate| |]; destruct c; try discriminate; destruct d; try discriminate; intros H; assert (p = before_crlf (cstr line)) as -> by congruence; apply text_bytes, HB; reflexivity.
  - destruct (ferror s1); [discriminate|]. destruct (fst (fgetc s1)); [discriminate| |]; destruct c; try discriminate; destruct d; try discriminate; intros H;
    assert (p = before_crlf (cstr [])) as -> by congruence; constructor.
Qed.
Lemma ask_sane W s dec rp : sane W -> ask W s dec = Ok rp -> finite_stream (ro_stdin rp) /\ forall p, ro_pass rp = Some p -> bytes_ok p.
Proof.
  intros HW. unfold ask. set (m := fst (method_of s)). set (a := snd (method_of s)). clearbody m a. unfold passphrase_entry_readpass.
  pose proof (readpass_finite (pe_rp (w_pp W)) (w_stdin W)) as HR.
  destruct m; try (apply HR; [exact (sn_stdin W HW)|exact (sn_tty W HW)]).
  - intros H. apply Ok_inj in H. subst rp. cbn [ro_stdin ro_pass]. split; [exact (sn_stdin W HW)|discriminate].
  - destruct (pe_getenv (w_pp W) a) as [v|] eqn:EG; [destruct (pe_strdup (w_pp W))|]; intros H; apply Ok_inj in H; subst rp; cbn [ro_stdin ro_pass];
      (split; [exact (sn_stdin W HW)|]); intros p Hp; try discriminate. injection Hp as <-. exact (sn_getenv W HW _ _ EG).
  - destruct (readpass_file (pe_file (w_pp W) a) _ _ a) as [p tr] eqn:EF. intros H. apply Ok_inj in H. subst rp. cbn [ro_stdin ro_pass].
    split; [exact (sn_stdin W HW)|]. intros q ->. eapply readpass_file_bytes; [|exact EF]. exact (sn_passfiles W HW a).
Qed.
Lemma reads_sane W s dec i passwd fi : sane W -> reads W s dec i passwd fi -> bytes_ok passwd /\ finite_stream fi.
Proof.
  intros HW [fi0 rp H1 H2 H3 ->]. destruct (ask_sane W s dec rp HW H2) as [A1 A2]. split; [exact (A2 _ H3)|].
  destruct i as [n|]; [exact (sn_files W HW n fi0 H1)|exact A1].
Qed.
Lemma reads_unique W s dec i p1 f1 p2 f2 : reads W s dec i p1 f1 -> reads W s dec i p2 f2 -> p1 = p2 /\ f1 = f2.
Proof.
  intros [a1 r1 A1 A2 A3 ->] [a2 r2 B1 B2 B3 ->]. rewrite A1 in B1. rewrite A2 in B2. injection B1 as <-. apply Ok_inj in B2. subst r2.
  rewrite A3 in B3. injection B3 as <-. auto.
Qed.
