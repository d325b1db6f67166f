(** The parameters of an encryption are those of the command line or the chosen ones. *)
From Verif Require Import Base SpecBytes SpecSHA SpecScrypt SpecScryptAPI SpecFormat SpecStream M_smix M_machine M_double M_memlimit M_cpuperf
  M_params M_stdio M_scryptenc SpecScryptenc P_scrypt_ref P_scryptenc.
Section S.
  Context (M : machine) (cfg : clk_cfg).
  (** P' is the choice of pickparams. *)
  Definition picked (lb : lib) (e : call_env) (P : xparams) (verbose : bool) (P' : xparams) : Prop :=
    exists sst m l r p, pickparams M cfg (lb_smix lb) (v_params e) (x_lim P) verbose = Ok (sst, m, inr (l, r, p)) /\
      P' = mk_xp (x_lim P) (Z.of_N l) r p.
  Lemma setup_picked lb e P hd dk pw v force lb1 ms P1 hd1 dk1 rc : x_logN P = 0%Z ->
    scryptenc_setup M cfg lb e P hd dk pw v force = Ok (lb1, ms, P1, hd1, dk1, rc) -> rc = SCRYPT_OK -> picked lb e P v P1.
  Proof.
    intros HZ E ->. unfold scryptenc_setup in E. apply bind_inv in E. destruct E as ([[[lb2 ms2] P2] rc2] & E1 & E).
    unfold setup_params in E1. rewrite HZ in E1. cbn [negb Z.eqb] in E1. apply bind_inv in E1. destruct E1 as ([[sst m] x] & E0 & E1).
    destruct x as [rc|[[l r] p]].
    - exfalso. assert (rc2 = rc) as -> by congruence. destruct (is_ok rc) eqn:EO; cbn [negb] in E.
      + apply is_ok_spec in EO. subst rc. pose proof (pickparams_codes M cfg _ _ _ _ _ _ _ E0) as HI. cbn in HI. intuition discriminate.
      + apply is_ok_false in EO. congruence.
    - assert (P2 = mk_xp (x_lim P) (Z.of_N l) r p /\ rc2 = SCRYPT_OK) as [-> ->] by (split; congruence). clear E1. change (is_ok SCRYPT_OK) with true in E. cbn [negb] in E.
      exists sst, m, l, r, p. split; [exact E0|].
      apply bind_inv in E. destruct E as (u & _ & E). apply bind_inv in E. destruct E as ([s d] & _ & E).
      destruct s as [salt|]; [|congruence]. apply bind_inv in E. destruct E as ([[ok dk2] lb3] & _ & E).
      destruct ok; cbn [negb] in E; [|congruence]. apply bind_inv in E. destruct E as (hd2 & _ & E). congruence.
  Qed.
  Ltac done_P H := apply f_equal with (f := fun x => match x with Ok o => Some (oc_rc o, oc_P o) | _ => None end) in H; cbn [oc_rc oc_P] in H.
  Lemma enc_file_picked lb hp e fi fo pw P v force o : x_logN P = 0%Z ->
    scryptenc_file M cfg lb hp e fi fo pw P v force = Ok o -> oc_rc o = SCRYPT_OK -> picked lb e P v (oc_P o).
  Proof.
    intros HZ E EO. unfold scryptenc_file in E. apply bind_inv in E. destruct E as (u & _ & E).
    apply bind_inv in E. destruct E as ([[[[[lb1 ms] P1] hd] dk] rc] & ES & E).
    destruct (is_ok rc) eqn:ER; cbn [negb] in E.
    2:{ exfalso. apply bind_inv in E. destruct E as (z & _ & E). apply is_ok_false in ER. done_P E. congruence. }
    apply is_ok_spec in ER. apply (setup_picked _ _ _ _ _ _ _ _ _ _ _ _ _ _ HZ ES) in ER.
    replace (oc_P o) with P1; [exact ER|]. clear - E.
    apply bind_inv in E. destruct E as (k & _ & E). apply bind_inv in E. destruct E as (h1 & _ & E). apply bind_inv in E. destruct E as (h2 & _ & E).
    destruct (fwrite hd fo) as [ok fo1]. destruct ok; cbn [negb] in E.
    2:{ apply bind_inv in E. destruct E as (z & _ & E). done_P E. congruence. }
    apply bind_inv in E. destruct E as ([h a] & _ & E). destruct a as [rc|[[ki si] AES]].
    { apply bind_inv in E. destruct E as (z & _ & E). done_P E. congruence. }
    apply bind_inv in E. destruct E as ([[[[eof AES'] hc] fi1] fo2] & _ & E). apply bind_inv in E. destruct E as (h3 & _ & E).
    destruct eof; cbn [negb] in E.
    2:{ apply bind_inv in E. destruct E as (z & _ & E). apply bind_inv in E. destruct E as (z2 & _ & E). done_P E. congruence. }
    apply bind_inv in E. destruct E as (h4 & _ & E). apply bind_inv in E. destruct E as (h5 & _ & E).
    destruct (ferror fi1).
    { apply bind_inv in E. destruct E as (z & _ & E). done_P E. congruence. }
    apply bind_inv in E. destruct E as ([hb hc2] & _ & E). destruct (fwrite hb fo2) as [ok fo3]. apply bind_inv in E. destruct E as (z & _ & E). done_P E. congruence.
  Qed.
  Lemma enc_buf_picked lb hp e d ob pw P v force o : x_logN P = 0%Z ->
    scryptenc_buf M cfg lb hp e d ob pw P v force = Ok o -> oc_rc o = SCRYPT_OK -> picked lb e P v (oc_P o).
  Proof.
    intros HZ E EO. unfold scryptenc_buf in E. apply bind_inv in E. destruct E as (u & _ & E).
    apply bind_inv in E. destruct E as ([[[[[lb1 ms] P1] hd] dk] rc] & ES & E).
    destruct (is_ok rc) eqn:ER; cbn [negb] in E.
    2:{ exfalso. apply bind_inv in E. destruct E as (z & _ & E). apply is_ok_false in ER. done_P E. congruence. }
    apply is_ok_spec in ER. apply (setup_picked _ _ _ _ _ _ _ _ _ _ _ _ _ _ HZ ES) in ER.
    replace (oc_P o) with P1; [exact ER|]. clear - E.
    apply bind_inv in E. destruct E as (k & _ & E). apply bind_inv in E. destruct E as ([h a] & _ & E). destruct a as [rc|[[ki si] AES]].
    { apply bind_inv in E. destruct E as (z & _ & E). done_P E. congruence. }
    apply bind_inv in E. destruct E as ([ct AES'] & _ & E).
    repeat (apply bind_inv in E; destruct E as (? & _ & E)). done_P E. congruence.
  Qed.
End S.
