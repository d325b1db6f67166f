(** C47: the text of the warnings. *)
From Coq Require Import String.
From Verif Require Import Base SpecAscii SpecBytes SpecSHA SpecScrypt SpecAES SpecDRBG SpecDouble SpecFormat SpecStream
  M_endian P_endian P_scrypt_ref M_entropy P_entropy M_machine M_double M_memlimit M_cpuperf M_humansize M_params Prop_params M_stdio P_stdio M_scryptenc SpecScryptenc
  P_scryptenc P_scryptenc2 P_scryptenc3 P_scryptenc4 Prop_explicit Prop_enc M_msg_text.
Local Open Scope list_scope.

(** What is printed when parameters were chosen explicitly and nothing else is to
    be shown: a line for each limit they may exceed, naming it, and no other. *)
Theorem C47_text M cfg lb hp e data outbuf passwd P L opps salt st' fmt_f1 :
  enc_ready M lb hp e passwd P -> data_ok data -> (List.length data + 128 <= List.length outbuf)%nat ->
  explicit_valid P -> no_failure e ->
  computable M (mk_fh (Z.to_N (x_logN P)) (x_r P) (x_p P) salt) ->
  crypto_entropy_read (m_sha M) (m_junk M) (v_ent e) (lb_drbg lb) 32 = Ok (Some salt, st') ->
  budget M (v_params e) (x_lim P) L -> speed M cfg (lb_smix lb) (v_params e) opps ->
  exists o big slow, scryptenc_buf M cfg lb hp e data outbuf passwd P false false = Ok o /\ oc_rc o = SCRYPT_OK /\
    map (msg_text fmt_f1) (oc_msgs o) =
      (if (big : bool) then [str "Warning: Explicit parameters might exceed memory limit"] else []) ++
      (if (slow : bool) then [str "Warning: Explicit parameters might exceed time limit"] else []) /\
    (big = true <-> L < 128 * 2 ^ Z.to_N (x_logN P) * x_r P) /\
    (fits (4 * 2 ^ Z.to_N (x_logN P) * x_r P * x_p P) (dmul opps (l_maxtime (x_lim P))) -> slow = false).
Proof.
  intros H1 H2 H3 H4 H5 H6 H7 H8 H9.
  destruct (C47_valid M cfg lb hp e data outbuf passwd P false L opps salt st' H1 H2 H3 H4 H5 H6 H7 H8 H9)
    as (o & big & slow & disp & E & R & _ & _ & EM & ED & K). cbv zeta in K. destruct K as (K1 & K2 & _).
  exists o, big, slow. split; [exact E|]. split; [exact R|]. split; [|split; assumption].
  rewrite EM, ED. destruct big, slow; reflexivity.
Qed.
(** The hypotheses are those of C47_valid: see C47_hyps. *)
Example C47_text_hyps : exists L opps salt d,
  enc_ready ex_machine ex_lib ex_heap ex_call ex_passwd ex_P /\ explicit_valid ex_P /\ no_failure ex_call /\
  crypto_entropy_read (m_sha ex_machine) (m_junk ex_machine) (v_ent ex_call) (lb_drbg ex_lib) 32 = Ok (Some salt, d) /\
  budget ex_machine (v_params ex_call) (x_lim ex_P) L /\ speed ex_machine ex_cfg (lb_smix ex_lib) (v_params ex_call) opps.
Proof.
  destruct C47_hyps as (L & opps & salt & d & H1 & H2 & H3 & H4 & H5 & H6 & H7 & H8). exists L, opps, salt, d. auto 10.
Qed.
Print Assumptions C47_text.
