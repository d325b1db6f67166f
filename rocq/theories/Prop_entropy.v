(** Properties C33 and C34: random numbers. *)
From Verif Require Import Base SpecBytes SpecSHA SpecDRBG M_sha256_tr M_simd M_sha256_hw M_sha256 P_sha256 M_entropy
  P_scrypt_ref P_entropy.

(** C34.  entropy_read succeeds exactly if memory was available, the device
    could be opened and closed, and successive reads (of any sizes) delivered
    all the bytes; the result is those bytes in order. *)
Theorem C34_success os n d : n <= 2 ^ 63 - 1 ->
  ((exists ev, entropy_read os n = Ok (Some d, ev)) <->
   oe_malloc os = true /\ oe_open os = true /\ oe_close os = true /\ delivers os 0 (N.to_nat n) d) /\
  (delivers os 0 (N.to_nat n) d -> N.of_nat (length d) = n).
Proof.
  intros Hn. destruct (entropy_read_spec os n Hn) as (r & ev & E & HD & HC & _). split.
  - rewrite <- HD. split; [intros (ev' & E'); congruence|intros ->; eauto].
  - intros H. apply delivers_length in H. lia.
Qed.
Print Assumptions C34_success.
(** In every other case it fails: it never aborts, and the bytes returned are
    those of the read() calls. *)
Theorem C34_total os n : n <= 2 ^ 63 - 1 -> exists r ev, entropy_read os n = Ok (r, ev) /\
  forall d, r = Some d -> d = concat (map read_data ev).
Proof. intros Hn. destruct (entropy_read_spec os n Hn) as (r & ev & E & HD & HC & _). eauto. Qed.
Print Assumptions C34_total.
(** The descriptor is closed (exactly one close() that is not merely
    interrupted, after the last read) and the cookie freed on every path. *)
Theorem C34_released os n r ev : n <= 2 ^ 63 - 1 -> entropy_read os n = Ok (r, ev) ->
  ev = [Ev_malloc false] \/ ev = [Ev_malloc true; Ev_open false; Ev_free] \/
  exists reads, Forall is_read reads /\
    ev = [Ev_malloc true; Ev_open true] ++ reads ++ repeat Ev_close_eintr (oe_eintr os) ++ [Ev_close (oe_close os); Ev_free].
Proof.
  intros Hn E. destruct (entropy_read_spec os n Hn) as (r' & ev' & E' & _ & _ & H).
  assert (ev' = ev) as -> by congruence. destruct (oe_malloc os); [destruct (oe_open os)|]; auto.
Qed.
Print Assumptions C34_released.
(** Short reads of 1, 2, 3, ... bytes deliver 6 bytes in three reads. *)
Definition short_os : os_ent := mk_os true true (fun i => Some (repeat (N.of_nat i) (S i))) 2 true.
Example C34_hyps : delivers short_os 0 6 [0; 1; 1; 2; 2; 2] /\
  exists ev, entropy_read short_os 6 = Ok (Some [0; 1; 1; 2; 2; 2], ev).
Proof.
  split; [|vm_compute; eauto].
  apply (del_read short_os 0 6 [0] [1; 1; 2; 2; 2]); [lia|reflexivity|discriminate|].
  apply (del_read short_os 1 5 [1; 1] [2; 2; 2]); [lia|reflexivity|discriminate|].
  apply (del_read short_os 2 3 [2; 2; 2] []); [lia|reflexivity|discriminate|]. constructor.
Qed.

(** C33.  What one call contributes to a history: the operations of the
    generator it performed, and the bytes they generated. *)
Definition call_log (call : ent_env * nat) (r : option bytes) (log : list drbg_op * bytes) : Prop :=
  seeds_from (fst call) 0 (fst log) /\
  (r = Some (snd log) /\ length (snd log) = snd call /\ bytes_ok (snd log) \/ r = None).
Inductive logs_ok : list (ent_env * nat) -> list (option bytes) -> list (list drbg_op * bytes) -> Prop :=
| logs_nil : logs_ok [] [] []
| logs_cons c cs r rs l ls : call_log c r l -> logs_ok cs rs ls -> logs_ok (c :: cs) (r :: rs) (l :: ls).

Lemma history_ok hw junk calls : forall st, drbg_inv st -> Forall (fun c => env_bytes (fst c)) calls ->
  exists rs st' logs, entropy_history hw junk st calls = Ok (rs, st') /\ logs_ok calls rs logs /\ drbg_inv st' /\
    drbg_run (drbg_abs st) (concat (map fst logs)) = Some (drbg_abs st', concat (map snd logs)) /\
    drbg_limits (gen_count st) (concat (map fst logs)).
Proof.
  induction calls as [|[E n] cs IH]; intros st Hi HF; cbn [entropy_history].
  - exists [], st, []. split; [reflexivity|]. split; [constructor|]. split; [exact Hi|]. split; [reflexivity|exact I].
  - inversion HF as [|? ? HE HF']; subst. cbn [fst] in HE.
    destruct (crypto_entropy_read_ok hw junk E st n HE Hi) as (r & st1 & ops & out & E1 & Hi1 & R1 & L1 & S1 & HR).
    rewrite E1, bind_Ok. destruct (IH st1 Hi1 HF') as (rs & st' & logs & E2 & HL & Hi' & R2 & L2).
    rewrite E2, bind_Ok. exists (r :: rs), st', ((ops, out) :: logs). split; [reflexivity|].
    split; [constructor; [split; [exact S1|]; cbn [fst snd]; destruct HR as [H|[H _]]; auto|exact HL]|].
    split; [exact Hi'|]. cbn [map concat fst snd]. split.
    + rewrite (run_app ops _ _ _ _ R1), R2. reflexivity.
    + apply limits_app; [exact L1|].
      assert (count_after (gen_count st) ops = gen_count st1) as ->; [|exact L2].
      pose proof (run_count ops _ _ _ R1) as HC. unfold drbg_abs, gen_count, drbg_inv in *.
      destruct (d_inst st) eqn:I0; destruct (d_inst st1) eqn:I1; cbv iota in HC.
      * destruct (Hi eq_refl) as [_ Hc]. specialize (HC ltac:(lia)). symmetry. apply HC.
      * specialize (HC ltac:(destruct (Hi eq_refl); lia)). subst ops. cbn [drbg_run] in R1. discriminate.
      * specialize (HC I). symmetry. apply HC.
      * specialize (HC I). subst ops. reflexivity.
Qed.
(** Every history of calls from program start, whatever the operating system
    does: no abort; all bytes ever returned are the output of a single
    HMAC_DRBG run whose requests are at most 65536 bytes, with at most 256
    generate operations between (re)seeds, every seed being a complete
    entropy_read of 48 (instantiation) or 32 (reseed) bytes. *)
Theorem C33_hmac_drbg hw junk calls : Forall (fun c => env_bytes (fst c)) calls ->
  exists rs st logs, entropy_history hw junk drbg_initial calls = Ok (rs, st) /\ logs_ok calls rs logs /\
    drbg_run None (concat (map fst logs)) = Some (drbg_abs st, concat (map snd logs)) /\
    drbg_limits 0 (concat (map fst logs)).
Proof.
  intros HF. destruct (history_ok hw junk calls drbg_initial ltac:(discriminate) HF) as (rs & st & logs & H1 & H2 & _ & H3 & H4).
  exists rs, st, logs. auto.
Qed.
Print Assumptions C33_hmac_drbg.
(** A call fails only if the operating system failed to deliver the seed
    needed next. *)
Theorem C33_fails_only_without_entropy hw junk E st n r st' : env_bytes E -> drbg_inv st ->
  crypto_entropy_read hw junk E st n = Ok (r, st') ->
  (exists d, r = Some d /\ length d = n) \/
  (r = None /\ exists k len, (len = 48 \/ len = 32)%nat /\ forall d, ~ seed_of E k len d).
Proof.
  intros HE Hi Er. destruct (crypto_entropy_read_ok hw junk E st n HE Hi) as (r' & st1 & ops & out & E1 & _ & _ & _ & _ & HR).
  assert (r' = r) as -> by congruence. destruct HR as [(-> & HL & _)|(-> & HF)]; [left; eauto|right].
  split; [reflexivity|]. destruct (d_inst st); [eauto|]. destruct ops; eauto.
Qed.
Print Assumptions C33_fails_only_without_entropy.
(** Before any seed was obtained, nothing is returned and the generator stays
    uninstantiated. *)
Theorem C33_no_unseeded_output hw junk E st n : env_bytes E -> d_inst st = false ->
  (forall d, ~ seed_of E 0 48 d) -> crypto_entropy_read hw junk E st n = Ok (None, st).
Proof.
  intros HE Hi HF. unfold crypto_entropy_read. rewrite Hi. cbn [negb].
  destruct (instantiate_ok hw junk E 0 st HE) as [(d & K & V & _ & Hs & _)|(-> & _)].
  - exfalso. exact (HF d Hs).
  - rewrite bind_Ok. reflexivity.
Qed.
Print Assumptions C33_no_unseeded_output.
(** Conversely, with a working entropy source every call succeeds. *)
Theorem C33_succeeds hw junk E st n : env_bytes E -> drbg_inv st ->
  (forall k len, (len = 48 \/ len = 32)%nat -> exists d, seed_of E k len d) ->
  exists d st', crypto_entropy_read hw junk E st n = Ok (Some d, st') /\ length d = n /\ bytes_ok d /\ drbg_inv st'.
Proof.
  intros HE Hi HS. destruct (crypto_entropy_read_ok hw junk E st n HE Hi) as (r & st1 & ops & out & E1 & Hi1 & _ & _ & _ & HR).
  destruct HR as [(-> & HL & Hb)|(-> & HF)]; [exists out, st1; auto|exfalso].
  assert (exists d, seed_of E (length (drbg_seeds ops)) (if d_inst st then 32 else match ops with [] => 48 | _ => 32 end) d) as [d Hd].
  { apply HS. destruct (d_inst st); [auto|destruct ops; auto]. }
  exact (HF d Hd).
Qed.
Print Assumptions C33_succeeds.
Definition example_env : ent_env :=
  mk_ee (fun _ => mk_os true true (fun i => Some (repeat (N.of_nat i mod 256) 20)) 0 true) true (fun k i => Some 3735928559).
Example C33_hyps : env_bytes example_env /\ drbg_inv drbg_initial.
Proof.
  split; [|discriminate]. split; cbn.
  - intros k i d E. injection E as <-. repeat constructor; apply N.mod_lt; discriminate.
  - intros k i w E. injection E as <-. reflexivity.
Qed.
