(** Property C09: status codes and error messages. *)
From Coq Require Import String.
From Verif Require Import Base SpecAscii SpecBytes SpecSHA SpecScrypt SpecScryptAPI SpecAES SpecDRBG SpecFormat SpecStream
  M_sha256 M_smix M_scrypt_sel M_entropy P_entropy M_machine M_double M_memlimit M_cpuperf
  M_params M_stdio M_scryptenc SpecScryptenc P_scryptenc P_scryptenc2 P_scryptenc3 P_scryptenc4 P_scryptenc5
  P_scryptenc6 P_scryptenc7 P_scryptenc8 P_scryptenc9 Prop_params Prop_enc Prop_dec M_print_error.
Local Open Scope list_scope.

(** ** Messages *)
Definition programmer_error (w : warn_st) : bytes := ws_prog w ++ str ": Programmer error: unrecognized scrypt error" ++ [newline].
(** Two texts that differ at some position of both. *)
Fixpoint differ (a b : bytes) : bool :=
  match a, b with
  | x :: a', y :: b' => negb (x =? y) || differ a' b'
  | _, _ => false
  end.
Lemma differ_app : forall a b x y, differ a b = true -> a ++ x <> b ++ y.
Proof.
  induction a as [|c a IH]; intros [|d b] x y H E; try discriminate H. cbn in H, E. injection E as -> E.
  rewrite N.eqb_refl in H. cbn in H. exact (IH _ _ _ H E).
Qed.
(** The beginning of each message, up to the part that depends on the file
    names and errno. *)
Definition fixed_part (rc : rcode) : bytes :=
  match rc with
  | SCRYPT_OK => []
  | SCRYPT_ELIMIT => str "Error determining amount of available memory"
  | SCRYPT_ECLOCK => str "Error reading clocks"
  | SCRYPT_EKEY => str "Error computing derived key"
  | SCRYPT_ESALT => str "Error reading salt"
  | SCRYPT_EOPENSSL => str "OpenSSL error"
  | SCRYPT_ENOMEM => str "Error allocating memory"
  | SCRYPT_EINVAL => str "Input is not valid scrypt-encrypted block" ++ [newline]
  | SCRYPT_EVERSION => str "Unrecognized scrypt format version" ++ [newline]
  | SCRYPT_ETOOBIG => str "Decrypting file would require too much memory" ++ [newline]
  | SCRYPT_ETOOSLOW => str "Decrypting file would take too much CPU time" ++ [newline]
  | SCRYPT_EBIGSLOW => str "Decrypting file would require too much memory and CPU time" ++ [newline]
  | SCRYPT_EPASS => str "Passphrase is incorrect" ++ [newline]
  | SCRYPT_EWRFILE => str "Error writing file: "
  | SCRYPT_ERDFILE => str "Error reading file: "
  | SCRYPT_EPARAM => str "Error in explicit parameters" ++ [newline]
  end.
(** What follows it: the name of the file concerned and the errno text. *)
Definition variable_part (w : warn_st) (i o : option bytes) (rc : rcode) : bytes :=
  let errno := match ws_errno w with Some t => str ": " ++ t | None => [] end in
  match rc with
  | SCRYPT_ELIMIT | SCRYPT_ECLOCK | SCRYPT_EKEY | SCRYPT_ESALT | SCRYPT_EOPENSSL | SCRYPT_ENOMEM => errno ++ [newline]
  | SCRYPT_EWRFILE => match o with Some n => n | None => str "standard output" end ++ errno ++ [newline]
  | SCRYPT_ERDFILE => match i with Some n => n | None => str "standard input" end ++ errno ++ [newline]
  | _ => []
  end.
Lemma print_error_text w rc i o : rc <> SCRYPT_OK ->
  scryptenc_print_error w (rcode_num rc) i o =
    Ok (ws_prog w ++ str ": " ++ fixed_part rc ++ variable_part w i o rc, mk_ws (ws_name w) None).
Proof.
  intros H. destruct w as [nm [er|]]; destruct rc; try congruence; cbn [rcode_num]; unfold scryptenc_print_error; cbn [Z.eqb Pos.eqb];
    unfold warnp, warn0, warn, warnx, variable_part, fixed_part, or_name; cbn [ws_errno ws_name]; try destruct i; try destruct o;
    rewrite ?app_nil_r, <- ?app_assoc; reflexivity.
Qed.

(** Every non-OK code: a message is printed (with the name of the file for the
    two file codes) and it is not the "Programmer error" message; errno is
    cleared.  Only the codes 1 .. 15 have a message of their own. *)
Theorem C09_has_message w rc i o : rc <> SCRYPT_OK ->
  exists line w', scryptenc_print_error w (rcode_num rc) i o = Ok (line, w') /\
    line <> programmer_error w /\ ws_errno w' = None.
Proof.
  intros H. rewrite print_error_text by exact H. do 2 eexists. split; [reflexivity|]. split; [|reflexivity].
  unfold programmer_error. intros E. apply app_inv_head in E.
  change (str ": Programmer error: unrecognized scrypt error") with (str ": " ++ str "Programmer error: unrecognized scrypt error") in E.
  rewrite <- app_assoc in E. apply app_inv_head in E. revert E. apply differ_app. destruct rc; try congruence; vm_compute; reflexivity.
Qed.
Lemma Ok_pair_fst {A B} (a a' : A) (b b' : B) : Ok (a, b) = Ok (a', b') -> a' = a.
Proof. congruence. Qed.
Theorem C09_distinct_messages w1 w2 rc1 rc2 i1 o1 i2 o2 l1 w1' l2 w2' :
  ws_name w1 = ws_name w2 -> rc1 <> rc2 ->
  scryptenc_print_error w1 (rcode_num rc1) i1 o1 = Ok (l1, w1') ->
  scryptenc_print_error w2 (rcode_num rc2) i2 o2 = Ok (l2, w2') -> l1 <> l2.
Proof.
  intros HN HNE E1 E2.
  assert (rc1 <> SCRYPT_OK) as H1 by (intros ->; discriminate E1).
  assert (rc2 <> SCRYPT_OK) as H2 by (intros ->; discriminate E2).
  rewrite print_error_text in E1 by exact H1. rewrite print_error_text in E2 by exact H2.
  apply Ok_pair_fst in E1, E2. subst l1 l2. unfold ws_prog. rewrite HN. intros E. do 2 apply app_inv_head in E. revert E.
  apply differ_app. clear HN. destruct rc1; try congruence; destruct rc2; try congruence; vm_compute; reflexivity.
Qed.
Theorem C09_codes z : (1 <= z <= 15)%Z <-> exists rc, rc <> SCRYPT_OK /\ rcode_num rc = z.
Proof.
  split.
  - intros H. assert (z = 1 \/ z = 2 \/ z = 3 \/ z = 4 \/ z = 5 \/ z = 6 \/ z = 7 \/ z = 8 \/ z = 9 \/ z = 10 \/ z = 11 \/ z = 12 \/ z = 13 \/ z = 14 \/ z = 15)%Z as HZ by lia.
    repeat (destruct HZ as [-> |HZ]; [match goal with |- exists rc, _ /\ rcode_num rc = ?n =>
      first [exists SCRYPT_ELIMIT; split; [discriminate|reflexivity] | exists SCRYPT_ECLOCK; split; [discriminate|reflexivity]
            | exists SCRYPT_EKEY; split; [discriminate|reflexivity] | exists SCRYPT_ESALT; split; [discriminate|reflexivity]
            | exists SCRYPT_EOPENSSL; split; [discriminate|reflexivity] | exists SCRYPT_ENOMEM; split; [discriminate|reflexivity]
            | exists SCRYPT_EINVAL; split; [discriminate|reflexivity] | exists SCRYPT_EVERSION; split; [discriminate|reflexivity]
            | exists SCRYPT_ETOOBIG; split; [discriminate|reflexivity] | exists SCRYPT_ETOOSLOW; split; [discriminate|reflexivity]
            | exists SCRYPT_EPASS; split; [discriminate|reflexivity] | exists SCRYPT_EWRFILE; split; [discriminate|reflexivity]
            | exists SCRYPT_ERDFILE; split; [discriminate|reflexivity] | exists SCRYPT_EPARAM; split; [discriminate|reflexivity]] end|]).
    subst z. exists SCRYPT_EBIGSLOW. split; [discriminate|reflexivity].
  - intros (rc & H & <-). destruct rc; cbn; try congruence; lia.
Qed.
(** Printing the "error" of a success is a programming error (assertion). *)
Theorem C09_no_error_to_print w i o : scryptenc_print_error w (rcode_num SCRYPT_OK) i o = Abort.
Proof. reflexivity. Qed.
Example C09_case :
  scryptenc_print_error (mk_ws (Some (str "scrypt")) (Some (str "No space left on device"))) 12 (Some (str "a")) (Some (str "b"))
    = Ok (str "scrypt: Error writing file: b: No space left on device" ++ [newline], mk_ws (Some (str "scrypt")) None).
Proof. vm_compute. reflexivity. Qed.

(** ** Which codes the entry points return *)
Lemma aes_rc_codes e : In (aes_rc e) [SCRYPT_EOPENSSL; SCRYPT_ENOMEM].
Proof. unfold aes_rc. destruct (v_key_mem e); cbn; tauto. Qed.
Theorem C09_encrypt_buffer M cfg lb hp e data outbuf passwd P verbose force o :
  enc_ready M lb hp e passwd P -> data_ok data -> (length data + 128 <= length outbuf)%nat ->
  scryptenc_buf M cfg lb hp e data outbuf passwd P verbose force = Ok o ->
  In (oc_rc o) [SCRYPT_OK; SCRYPT_ELIMIT; SCRYPT_ECLOCK; SCRYPT_EKEY; SCRYPT_ESALT; SCRYPT_EOPENSSL; SCRYPT_ENOMEM; SCRYPT_EPARAM].
Proof.
  intros [[Hs HPW HH] HXP HE HDR] [HD1 HD2] HO E. apply scryptenc_buf_inv in E; auto. destruct E as (_ & _ & _ & _ & _ & _ & HR).
  revert HR. generalize (oc_rc o) (oc_P o) (oc_val o). clear. intros rc P' V HR.
  destruct HR as [rc P' A1 A2|rc h A1 A2|h A1 A2 A3]; [unfold enc_codes, param_codes in A2; cbn in A2 |- *; tauto| |left; reflexivity].
  rewrite A1. pose proof (aes_rc_codes e) as HAC. cbn in HAC |- *. tauto.
Qed.
Theorem C09_encrypt_stream M cfg lb hp e fi fo passwd P verbose force o :
  enc_ready M lb hp e passwd P -> instream_ok fi ->
  scryptenc_file M cfg lb hp e fi fo passwd P verbose force = Ok o ->
  In (oc_rc o) [SCRYPT_OK; SCRYPT_ELIMIT; SCRYPT_ECLOCK; SCRYPT_EKEY; SCRYPT_ESALT; SCRYPT_EOPENSSL; SCRYPT_ENOMEM; SCRYPT_EPARAM;
                SCRYPT_EWRFILE; SCRYPT_ERDFILE].
Proof.
  intros [[Hs HPW HH] HXP HE HDR] [HD1 HD2] E. apply scryptenc_file_inv in E; auto. destruct E as (_ & _ & _ & _ & _ & HR).
  revert HR. generalize (oc_rc o) (oc_P o) (oc_val o) (oc_heap o). clear. intros rc P' V H' HR.
  destruct HR as [rc P' A1 A2|h rc fi' fo' hp' A1 A2 A3 A4]; [unfold enc_codes, param_codes in A2; cbn in A2 |- *; tauto|].
  destruct A4 as [| rc fo' hp' B1 B2 B3 B4 B5 | | | |]; try (cbn; tauto).
  rewrite B1. pose proof (aes_rc_codes e) as HAC. cbn in HAC |- *. tauto.
Qed.
Lemma dec_setup_codes M cfg lb e lim passwd f verbose force lb' ms dk rc :
  dec_setup_result M cfg lb e lim passwd f verbose force lb' ms dk rc ->
  In rc [SCRYPT_OK; SCRYPT_ELIMIT; SCRYPT_ECLOCK; SCRYPT_EKEY; SCRYPT_EINVAL; SCRYPT_ETOOBIG; SCRYPT_ETOOSLOW; SCRYPT_EBIGSLOW; SCRYPT_EPASS].
Proof.
  intros H. destruct H as [dk A1|dk sst m rc A1 A2 A3|dk sst m lb' A1 A2 A3|sst m lb' A1 A2 A3 A4|sst m lb' A1 A2 A3 A4]; try (cbn; tauto).
  apply checkparams_codes in A3. destruct A3 as [<-|[<-|HC]]; [cbn; tauto|cbn; tauto|]. destruct force; [destruct HC|].
  unfold param_codes, limit_codes in HC. cbn in HC |- *. tauto.
Qed.
Theorem C09_decrypt_buffer M cfg lb hp e f outbuf outlen passwd P verbose force o :
  dec_ready M hp passwd -> data_ok f -> (length f - 128 <= length outbuf)%nat ->
  scryptdec_buf M cfg lb hp e f outbuf outlen passwd P verbose force = Ok o ->
  In (oc_rc o) [SCRYPT_OK; SCRYPT_ELIMIT; SCRYPT_ECLOCK; SCRYPT_EKEY; SCRYPT_EOPENSSL; SCRYPT_ENOMEM; SCRYPT_EINVAL; SCRYPT_EVERSION;
                SCRYPT_ETOOBIG; SCRYPT_ETOOSLOW; SCRYPT_EBIGSLOW; SCRYPT_EPASS].
Proof.
  intros [Hs HPW HH] [HD1 HD2] HO E. apply scryptdec_buf_inv in E; auto. destruct E as (_ & _ & _ & _ & HR).
  revert HR. generalize (oc_rc o) (oc_msgs o) (oc_P o) (oc_val o). clear. intros rc ms P' V HR.
  destruct HR as [A|A B C|A B C|rc lb' ms dk A B C D F|rc lb' ms dk A B C D F G|rc lb' ms dk A B C D F G H]; try (cbn; tauto).
  - apply dec_setup_codes in F. cbn in F |- *. tauto.
  - rewrite F. pose proof (aes_rc_codes e) as HAC. cbn in HAC |- *. tauto.
  - destruct H as [(-> & _)|(-> & _)]; cbn; tauto.
Qed.
Theorem C09_decrypt_stream M cfg lb hp e fi fo passwd P verbose force o :
  dec_ready M hp passwd -> instream_ok fi ->
  scryptdec_file M cfg lb hp e fi fo passwd P verbose force = Ok o ->
  In (oc_rc o) [SCRYPT_OK; SCRYPT_ELIMIT; SCRYPT_ECLOCK; SCRYPT_EKEY; SCRYPT_EOPENSSL; SCRYPT_ENOMEM; SCRYPT_EINVAL; SCRYPT_EVERSION;
                SCRYPT_ETOOBIG; SCRYPT_ETOOSLOW; SCRYPT_EBIGSLOW; SCRYPT_EPASS; SCRYPT_EWRFILE; SCRYPT_ERDFILE].
Proof.
  intros [Hs HPW HH] [HD1 HD2] E. apply scryptdec_file_inv in E; auto. destruct E as (_ & _ & _ & HR).
  revert HR. generalize (oc_rc o) (oc_msgs o) (oc_P o) (oc_val o) (oc_heap o). clear. intros rc0 ms0 P0 [fi0 fo0] hp0. cbn [fst snd]. intros HR.
  destruct HR as [A1|rc1 hd fi' hp' A1 A2 A3 A4|rc1 fi' ms lb' dk hp' A1 A2 A3 A4 A5|rc1 fi1 ms lb' dk hp' A1 A2 A3 A4 A5|fi1 ms lb' dk ct hold w fi' fo' hp' A1 A2 A3 A4 A5 A6 A7 A8 A9|fi1 ms lb' dk ct hold fi' fo' hp' A1 A2 A3 A4 A5 A6 A7 A8 A9|fi1 ms lb' dk fi' fo' hp' A1 A2 A3 A4 A5 A6 A7 A8 A9 A10|rc1 fi1 ms lb' dk fi' fo' hp' A1 A2 A3 A4 A5 A6 A7 A8 A9 A10 A11];
    try (cbn; tauto).
  - destruct A2; try destruct (stream_fails fi); cbn; tauto.
  - apply dec_setup_codes in A3. cbn in A3 |- *. tauto.
  - rewrite A4. pose proof (aes_rc_codes e) as HAC. cbn in HAC |- *. tauto.
  - destruct A11 as [(-> & _)|(-> & _)]; cbn; tauto.
Qed.
Theorem C09_info al1 al2 fi rc ms fi' : input_ok fi ->
  scryptdec_file_printparams al1 al2 fi = Ok (rc, ms, fi') ->
  In rc [SCRYPT_OK; SCRYPT_EINVAL; SCRYPT_EVERSION; SCRYPT_ERDFILE].
Proof.
  intros HI E. unfold scryptdec_file_printparams in E. destruct (load_header_ok fi HI) as (rc1 & hd & fi1 & EL & HR). rewrite EL in E.
  destruct (is_ok rc1) eqn:EO; cbn [negb] in E.
  - do 4 (apply bind_inv in E; destruct E as (? & _ & E)). left. congruence.
  - assert (rc = rc1) as -> by congruence. destruct HR; try destruct (stream_fails fi); cbn; tauto.
Qed.
(** The hypotheses are met by the runs of C02_hyps and C06. *)
Example C09_hyps : exists o, enc_ready ex_machine ex_lib ex_heap ex_call ex_passwd ex_P /\ data_ok ex_data /\
  scryptenc_buf ex_machine ex_cfg ex_lib ex_heap ex_call ex_data (repeat 0 140) ex_passwd ex_P true true = Ok o /\ oc_rc o = SCRYPT_OK.
Proof. exact C02_hyps. Qed.
Definition Prop_error_all := (C09_has_message, C09_distinct_messages, C09_codes, C09_no_error_to_print, C09_encrypt_buffer, C09_encrypt_stream, C09_decrypt_buffer,
  C09_decrypt_stream, C09_info).
Print Assumptions Prop_error_all.
