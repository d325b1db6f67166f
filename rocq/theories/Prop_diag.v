(** C11 (which diagnostics): every failure is reported under the name of the file
    it concerns. *)
From Coq Require Import String.
From Verif Require Import Base SpecAscii SpecBytes SpecSHA SpecScrypt SpecScryptAPI SpecFormat SpecStream SpecCLI SpecPass
  M_machine M_double M_stdio M_params M_scryptenc SpecScryptenc M_getopt M_readpass M_print_error M_main P_scrypt_ref P_scryptenc P_main SpecGetopt Prop_params Prop_enc Prop_readpass Prop_getopt Prop_cli Prop_main.
From Coq Require Import Lia.
Local Open Scope list_scope.
Local Open Scope N_scope.

(** e is one of the events evs of a run asked to read i and write o (for info: no
    output).
    - An error message is about a status reported by the library, other than
      success, and names the files of the run;
    - a status other than success is followed by its error message;
    - a file that cannot be opened is the one asked for, and is complained about
      by name;
    - so is a passphrase that cannot be obtained. *)
Definition attributed (i o : option bytes) (evs : list pevent) (e : pevent) : Prop :=
  match e with
  | E_error rc i' o' => i' = i /\ o' = o /\ rc <> SCRYPT_OK /\ (In (E_run rc) evs \/ In (E_prep rc) evs)
  | E_run rc | E_prep rc => rc <> SCRYPT_OK -> In (E_error rc i o) evs
  | E_open_in n ok => i = Some n /\ (ok = false -> In (E_warn (str "Cannot open input file: " ++ n)) evs)
  | E_open_out n ok => o = Some n /\ (ok = false -> In (E_warn (str "Cannot open output file: " ++ n)) evs)
  | E_pass _ ok => ok = false -> In (E_warn (str "passphrase_entry_readpass")) evs
  | _ => True
  end.
Ltac inn := first [assumption | left; reflexivity | right; inn | apply in_or_app; left; inn | apply in_or_app; right; inn].
Section Diag.
  Context (W : world).
  Lemma att_close_in i o evs i' : Forall (attributed i o evs) (close_in W i').
  Proof. unfold close_in, warn_close. destruct i'; [destruct (w_close_in W)|]; repeat constructor. Qed.
  Lemma att_close_out i o evs o' : Forall (attributed i o evs) (close_out W o').
  Proof. unfold close_out, warn_close. destruct o'; [destruct (w_close_out W)|]; repeat constructor. Qed.
  Lemma att_opened_in i o evs : Forall (attributed i o evs) match i with None => [] | Some n => [E_open_in n true] end.
  Proof. destruct i; repeat constructor. discriminate. Qed.
  Lemma att_opened_out i o evs : Forall (attributed i o evs) match o with None => [] | Some n => [E_open_out n true] end.
  Proof. destruct o; repeat constructor. discriminate. Qed.
  Lemma print_error_inv rc i o pe : print_error rc i o = Ok pe -> pe = [E_error rc i o].
  Proof. unfold print_error. intros H. apply bind_inv in H. destruct H as (x & _ & H). congruence. Qed.
  Ltac fa := repeat first [assumption | apply att_close_in | apply att_close_out | apply att_opened_in | apply att_opened_out | apply Forall_nil
    | (apply Forall_app; split) | (apply Forall_cons; [first [exact I | intros; discriminate | intros; congruence | idtac]|])].
  Lemma enc_dec_attributed P m marg dec verbose force i o r :
    scrypt_mode_enc_dec W P m marg dec verbose force i o = Ok r -> Forall (attributed i o (pr_events r)) (pr_events r).
  Proof.
    unfold scrypt_mode_enc_dec. destruct (match i with None => Some (w_stdin W) | Some n => w_open_in W n end) as [fi|] eqn:EI.
    2:{ destruct i as [n|]; [|discriminate EI]. intros H. apply Ok_inj in H. subst r. cbn [fail pr_events or_name]. fa. split; [reflexivity|]. intros _. inn. }
    intros H. apply bind_inv in H. destruct H as (rp & _ & H). destruct (ro_pass rp) as [pw|].
    2:{ apply Ok_inj in H. subst r. cbn [fail pr_events]. fa. intros _. inn. }
    assert (forall pre dec' fi' lb' h' C r', enc_dec_run W dec' P lb' h' C pw fi' verbose force i o = Ok r' -> (forall evs, Forall (attributed i o evs) pre) ->
      Forall (attributed i o (pr_events (add_events pre r'))) (pr_events (add_events pre r'))) as HRUN.
    { clear. intros pre dec' fi' lb' h' C r' H HP. unfold enc_dec_run in H. destruct (match o with None => Some (w_stdout W) | Some n => w_open_out W n end) as [fo|] eqn:EO.
      - apply bind_inv in H. destruct H as ([[[rc ms] fo2] h2] & _ & H). apply bind_inv in H. destruct H as (h3 & _ & H). rewrite release_pass_ok, bind_Ok in H. apply bind_inv in H. destruct H as (pe & EPE & H).
        assert (pr_events r' = match o with None => [] | Some n => [E_open_out n true] end ++ [E_msgs ms; E_run rc] ++ E_pass_free (repeat 0 (S (List.length pw))) :: close_in W i ++ close_out W o ++ pe) as EE by (destruct o; apply Ok_inj in H; subst r'; reflexivity).
        unfold add_events. cbn [pr_events]. rewrite EE. destruct (is_ok rc) eqn:ER.
        + apply is_ok_spec in ER. subst rc. apply Ok_inj in EPE. subst pe. fa. apply HP.
        + apply is_ok_false in ER. apply print_error_inv in EPE. subst pe. fa; [apply HP|intros _; inn|]. split; [reflexivity|]. split; [reflexivity|]. split; [exact ER|]. left. inn.
      - destruct o as [n|]; [|discriminate EO]. apply bind_inv in H. destruct H as (h & _ & H). rewrite release_pass_ok, bind_Ok in H. apply Ok_inj in H. subst r'. unfold add_events. cbn [fail pr_events or_name]. fa; [apply HP|]. split; [reflexivity|]. intros _. inn. }
    destruct dec.
    - apply bind_inv in H. destruct H as (oc & _ & H). destruct (is_ok (oc_rc oc)) eqn:EO; cbn [negb] in H.
      + apply bind_inv in H. destruct H as (r1 & H1 & H). apply Ok_inj in H. subst r. apply (HRUN _ _ _ _ _ _ _ H1). intros evs. apply is_ok_spec in EO. fa.
      + apply is_ok_false in EO. apply bind_inv in H. destruct H as (h & _ & H). rewrite release_pass_ok, bind_Ok in H. apply bind_inv in H. destruct H as (pe & EPE & H). apply Ok_inj in H. subst r. cbn [fail pr_events].
        apply print_error_inv in EPE. subst pe. fa; [intros _; inn|]. split; [reflexivity|]. split; [reflexivity|]. split; [exact EO|]. right. inn.
    - apply bind_inv in H. destruct H as (r1 & H1 & H). apply Ok_inj in H. subst r. apply (HRUN _ _ _ _ _ _ _ H1). intros evs. fa.
  Qed.
  Lemma info_attributed i r : scrypt_mode_info W i = Ok r -> Forall (attributed i None (pr_events r)) (pr_events r).
  Proof.
    unfold scrypt_mode_info. destruct (match i with None => Some (w_stdin W) | Some n => w_open_in W n end) as [fi|] eqn:EI.
    2:{ destruct i as [n|]; [|discriminate EI]. intros H. apply Ok_inj in H. subst r. cbn [fail pr_events or_name]. fa. split; [reflexivity|]. intros _. inn. }
    intros H. apply bind_inv in H. destruct H as ([[rc ms] fi'] & _ & H). destruct (is_ok rc) eqn:EO; cbn [negb] in H.
    - apply is_ok_spec in EO. apply Ok_inj in H. subst r. cbn [pr_events]. fa.
    - apply is_ok_false in EO. apply bind_inv in H. destruct H as (pe & EPE & H). apply Ok_inj in H. subst r. cbn [fail pr_events].
      apply print_error_inv in EPE. subst pe. fa; [intros _; inn|]. split; [reflexivity|]. split; [reflexivity|]. split; [exact EO|]. left. inn.
  Qed.
End Diag.
Theorem C11_attributed : forall W prog m rest s i o r, Forall cstring rest -> requested W m rest s i o ->
  main W (prog :: mode_word m :: rest) = Ok r ->
  Forall (attributed i (match m with Info => None | _ => o end) (pr_events r)) (pr_events r).
Proof.
  intros W prog m rest s i o r HC HQ E. rewrite (C39_operation W prog m rest s i o HC HQ) in E.
  destruct m; cbn [operation] in E; [exact (enc_dec_attributed _ _ _ _ _ _ _ _ _ _ E)|exact (enc_dec_attributed _ _ _ _ _ _ _ _ _ _ E)|exact (info_attributed _ _ _ E)].
Qed.
(** Decrypting c, which does not exist, in the world of C51_hyps. *)
Definition ex_missing : list bytes := [str "-f"; str "--passphrase"; str "env:PW"; str "c"; str "b"].
Example C11_attributed_hyps b : exists r, Forall cstring ex_missing /\ requested (ex_world b) Dec ex_missing ex_settings (Some (str "c")) (Some (str "b")) /\
  main (ex_world b) (str "scrypt" :: mode_word Dec :: ex_missing) = Ok r /\ pr_status r = 1%Z /\ In (E_open_in (str "c") false) (pr_events r) /\
  In (E_warn (str "Cannot open input file: c")) (pr_events r).
Proof.
  assert (Forall cstring ex_missing) as HC. { unfold ex_missing. repeat (apply Forall_cons; [unfold cstring; cbn; intuition discriminate|]). apply Forall_nil. }
  assert (requested (ex_world b) Dec ex_missing ex_settings (Some (str "c")) (Some (str "b"))) as HQ.
  { exists [Flag (str "-f"); Arg (str "--passphrase") (str "env:PW")], [str "c"; str "b"]. split; [|split; [|split]].
    - apply ex_parse. apply (parse_other scrypt_options 99). discriminate.
    - eapply effs_cons; [apply eff_f|]. eapply effs_cons; [apply (eff_pass _ _ true false 0 d0_5 (of_N 300) 0 0 0 (str "env:PW") PASSPHRASE_ENV (str "PW")); exact (ms_env (str "PW"))|]. apply effs_nil.
    - constructor. discriminate.
    - unfold acceptable, ex_settings. cbn [s_logN s_r s_p s_maxmemfrac s_method]. split; [left; auto|]. split; [reflexivity|]. intros [H _]. discriminate H. }
  eexists. split; [exact HC|]. split; [exact HQ|]. split; [rewrite (C39_operation _ (str "scrypt") Dec _ _ _ _ HC HQ); reflexivity|].
  split; [reflexivity|]. cbn [fail pr_events or_name]. split; [left; reflexivity|right; left; reflexivity].
Qed.
Definition Prop_diag_all := (C11_attributed).
Print Assumptions Prop_diag_all.
