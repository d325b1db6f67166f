(** C69: the random generator leaves no seed material and no copy of its state
    in its automatic variables. *)
From Verif Require Import Base SpecBytes SpecSHA SpecDRBG M_sha256_tr M_simd M_sha256_hw M_sha256 M_memzero M_sha256_mem Prop_sha256_mem P_scrypt_ref
  M_entropy P_entropy Prop_entropy M_entropy_mem P_entropy_mem.

(* ------------------------------------------------------------------ *)
(** * Specification *)

(** What the stack held before, in the first [n] cells of some frame. *)
Definition stack (junk : nat -> nat -> N) (j n : nat) : list N := map (junk j) (seq 0 n).

(** A piece of memory that tells nothing.  Either it is all zeros; or it is the
    seed buffer of a read of the operating system's random device that failed
    (so that the call as a whole failed): it holds what that read delivered,
    which was never used, and otherwise what the stack held before; or it is
    the RDRAND buffer of an attempt in which RDRAND failed: it holds the words
    delivered before the failure, which were never used, the zero of the failed
    instruction, and otherwise what the stack held before. *)
Definition tells_nothing (junk : nat -> nat -> N) (E : ent_env) (r : option bytes) (p : piece) : Prop :=
  Forall (fun b => b = 0) (snd p) \/
  (fst p = P_seed /\ r = None /\ exists k n ev j, (n = 48 \/ n = 32)%nat /\
     entropy_read (ce_os E k) (N.of_nat n) = Ok (None, ev) /\
     snd p = concat (map read_data ev) ++ skipn (length (concat (map read_data ev))) (stack junk j n)) \/
  (fst p = P_rdrand /\ exists k i ws j, (i < 8)%nat /\ length ws = i /\
     (forall x, (x < i)%nat -> ce_step E k x = Some (nth x ws 0)) /\ ce_step E k i = None /\
     snd p = ws ++ [0] ++ skipn (S i) (stack junk j 8)).

(** Two environments that deliver the same complete seeds and the same complete
    RDRAND values, but may differ in all else: in particular in what failed
    reads and failed RDRAND attempts delivered before failing. *)
Definition same_seeds (E E' : ent_env) : Prop :=
  ce_rdrand E = ce_rdrand E' /\
  (forall k n d, seed_of E k n d <-> seed_of E' k n d) /\
  (forall k ws, length ws = 8%nat ->
     ((forall i, (i < 8)%nat -> ce_step E k i = Some (nth i ws 0)) <-> (forall i, (i < 8)%nat -> ce_step E' k i = Some (nth i ws 0)))).

(** A program's calls: the environment, the stack and the request of each. *)
Fixpoint mem_history hw leave (st : drbg) (calls : list (ent_env * (nat -> nat -> N) * nat))
  : res (list (option bytes * list piece) * drbg) :=
  match calls with
  | [] => Ok ([], st)
  | (E, junk, n) :: cs =>
      ' (r, st, l) <- mem_crypto_entropy_read hw leave junk E st n ;;
      ' (rs, st) <- mem_history hw leave st cs ;;
      Ok ((r, l) :: rs, st)
  end.

(* ------------------------------------------------------------------ *)
Lemma leftover_tells junk E r p : leftover junk E (negb (is_some r)) p -> tells_nothing junk E r p.
Proof.
  intros H. inversion H as [w m HZ|k n ev j HF HN HR|k i ws j H1 H2 H3 H4 H5]; subst; unfold tells_nothing; cbn [fst snd].
  - left. exact HZ.
  - right. left. split; [reflexivity|]. split; [destruct r; [discriminate|reflexivity]|].
    exists k, (N.to_nat n), ev, j. split; [destruct HN as [-> | ->]; auto|]. rewrite N2Nat.id. split; [exact HR|reflexivity].
  - right. right. split; [reflexivity|]. exists k, (length ws), ws, j. auto.
Qed.

(** One call: it returns what C33 says, and tells nothing. *)
Theorem C69_no_trace : forall hw leave junk j0 E st n, in_bounds leave -> env_bytes E -> drbg_inv st ->
  exists r st' l, mem_crypto_entropy_read hw leave junk E st n = Ok (r, st', l) /\
    crypto_entropy_read hw j0 E st n = Ok (r, st') /\ drbg_inv st' /\ Forall (tells_nothing junk E r) l.
Proof.
  intros hw leave junk j0 E st n HL HE HI.
  destruct (mem_crypto_entropy_read_ok hw leave HL junk j0 E HE st n HI) as (r & st' & l & E1 & E2 & E3 & E4).
  exists r, st', l. split; [exact E3|]. split; [exact E1|]. split; [exact E2|]. eapply Forall_impl; [|exact E4]. intros p. apply leftover_tells.
Qed.

(** If the operating system delivers and RDRAND, where used, does not fail, every
    automatic variable is left blank. *)
Theorem C69_blank : forall hw leave junk E st n r st' l, in_bounds leave -> env_bytes E -> drbg_inv st ->
  (ce_rdrand E = true -> forall k i, (i < 8)%nat -> ce_step E k i <> None) ->
  mem_crypto_entropy_read hw leave junk E st n = Ok (r, st', l) -> r <> None ->
  Forall (fun p => Forall (fun b => b = 0) (snd p)) l.
Proof.
  intros hw leave junk E st n r st' l HL HE HI HR EQ HN.
  destruct (mem_crypto_entropy_read_ok hw leave HL junk (fun _ => 0) E HE st n HI) as (r' & st2 & l' & _ & _ & E3 & E4).
  assert (r' = r) as -> by congruence. assert (l' = l) as -> by congruence.
  eapply Forall_impl; [|exact E4]. intros p H. inversion H as [w m HZ|k m ev j HF|k i ws j H1 H2 H3 H4 H5]; subst.
  - exact HZ.
  - destruct r; [discriminate|congruence].
  - destruct (HR H1 k (length ws) H2 H5).
Qed.

(** What is left by failures was never used: results do not depend on it. *)
Theorem C69_unused : forall hw junk E E' st n, env_bytes E -> env_bytes E' -> same_seeds E E' ->
  crypto_entropy_read hw junk E st n = crypto_entropy_read hw junk E' st n.
Proof.
  intros hw junk E E' st n HE HE' (H1 & H2 & H3).
  assert (forall k st, update_from_rdrand hw junk E k st = update_from_rdrand hw junk E' k st) as HU.
  { intros k s. unfold update_from_rdrand. rewrite H1. destruct (ce_rdrand E'); [|reflexivity].
    pose proof (generate_seed_ok (ce_step E k) 8 [] (map junk (seq 0 8)) ltac:(rewrite map_length, seq_length; reflexivity)) as HG.
    pose proof (generate_seed_ok (ce_step E' k) 8 [] (map junk (seq 0 8)) ltac:(rewrite map_length, seq_length; reflexivity)) as HG'.
    cbn [length app] in HG, HG'. rewrite HG, HG'. replace (rdrand_words (ce_step E' k) 0 8) with (rdrand_words (ce_step E k) 0 8); [reflexivity|].
    destruct (rdrand_words (ce_step E k) 0 8) as [ws|] eqn:EA.
    - apply rdrand_words_spec in EA. destruct EA as [HLn HS]. symmetry. apply rdrand_words_spec. split; [exact HLn|]. intros j Hj. apply (proj1 (H3 k ws HLn)); auto.
    - destruct (rdrand_words (ce_step E' k) 0 8) as [ws|] eqn:EB; [|reflexivity]. exfalso.
      apply rdrand_words_spec in EB. destruct EB as [HLn HS]. apply rdrand_words_none in EA. destruct EA as (j & Hj & HN). cbn [Nat.add] in *.
      pose proof (proj2 (H3 k ws HLn) HS j Hj) as HC. congruence. }
  assert (forall k m, N.of_nat m <= SSIZE_MAX -> forall B (f : option bytes -> res B),
    (' (r, _) <- entropy_read (ce_os E k) (N.of_nat m) ;; f r) = (' (r, _) <- entropy_read (ce_os E' k) (N.of_nat m) ;; f r)) as HR.
  { intros k m Hm B f.
    destruct (entropy_read_cases E k m HE Hm) as [(d & ev & -> & Hs & _)|(ev & -> & Hs)];
    destruct (entropy_read_cases E' k m HE' Hm) as [(d' & ev' & -> & Hs' & _)|(ev' & -> & Hs')]; rewrite !bind_Ok; cbv beta iota.
    - apply H2 in Hs. destruct Hs as (_ & _ & _ & Hs), Hs' as (_ & _ & _ & Hs'). rewrite (delivers_det _ _ _ _ Hs _ Hs'). reflexivity.
    - destruct (Hs' d). apply H2. exact Hs.
    - destruct (Hs d'). apply H2. exact Hs'.
    - reflexivity. }
  assert (forall k s, instantiate hw junk E k s = instantiate hw junk E' k s) as HI.
  { intros k s. unfold instantiate. change 48 with (N.of_nat 48). rewrite (HR k 48%nat) by (unfold SSIZE_MAX; lia).
    destruct (entropy_read (ce_os E' k) (N.of_nat 48)) as [[[d|] ev]| |]; try reflexivity. cbn [bind].
    destruct (update hw junk _ d); try reflexivity. cbn [bind]. rewrite HU. reflexivity. }
  assert (forall k s, reseed hw junk E k s = reseed hw junk E' k s) as HS.
  { intros k s. unfold reseed. change 32 with (N.of_nat 32). rewrite (HR k 32%nat) by (unfold SSIZE_MAX; lia).
    destruct (entropy_read (ce_os E' k) (N.of_nat 32)) as [[[d|] ev]| |]; try reflexivity. cbn [bind].
    destruct (update hw junk _ d); try reflexivity. cbn [bind]. rewrite HU. reflexivity. }
  assert (forall fuel k m s, read_loop hw junk E fuel k m s = read_loop hw junk E' fuel k m s) as HLp.
  { induction fuel as [|f IH]; intros k m s; cbn [read_loop]; (destruct (Nat.ltb 0 m); [|reflexivity]); [reflexivity|].
    rewrite HS. destruct (if RESEED_INTERVAL <? d_ctr s then reseed hw junk E' k s else Ok (true, s)) as [[ok s1]| |]; try reflexivity. cbn [bind].
    destruct ok; cbn [negb]; [|reflexivity]. destruct (generate hw junk _ s1) as [[o s2]| |]; try reflexivity. cbn [bind]. rewrite IH. reflexivity. }
  unfold crypto_entropy_read. rewrite HI. destruct (if negb (d_inst st) then instantiate hw junk E' 0 st else Ok (true, st)) as [[ok s]| |]; try reflexivity.
  cbn [bind]. destruct ok; cbn [negb]; [|reflexivity]. apply HLp.
Qed.

(** A whole program: every call of it tells nothing. *)
Theorem C69_history : forall hw leave calls, in_bounds leave ->
  Forall (fun c => env_bytes (fst (fst c))) calls ->
  exists rs st, mem_history hw leave drbg_initial calls = Ok (rs, st) /\
    Forall2 (fun c r => Forall (tells_nothing (snd (fst c)) (fst (fst c)) (fst r)) (snd r)) calls rs /\
    forall j0, entropy_history hw j0 drbg_initial (map (fun c => (fst (fst c), snd c)) calls) = Ok (map fst rs, st).
Proof.
  intros hw leave calls HL.
  assert (forall st, drbg_inv st -> Forall (fun c => env_bytes (fst (fst c))) calls ->
    exists rs st', mem_history hw leave st calls = Ok (rs, st') /\
    Forall2 (fun c r => Forall (tells_nothing (snd (fst c)) (fst (fst c)) (fst r)) (snd r)) calls rs /\
    forall j0, entropy_history hw j0 st (map (fun c => (fst (fst c), snd c)) calls) = Ok (map fst rs, st')) as H; [|intros HF; apply H; [discriminate|exact HF]].
  induction calls as [|[[E junk] n] cs IH]; intros st HI HF; cbn [mem_history map entropy_history].
  - exists [], st. split; [reflexivity|]. split; [constructor|reflexivity].
  - inversion HF as [|? ? HE HF']; subst. cbn [fst snd] in *.
    destruct (C69_no_trace hw leave junk (fun _ => 0) E st n HL HE HI) as (r & st1 & l & E1 & _ & HI1 & HT).
    rewrite E1, bind_Ok. destruct (IH st1 HI1 HF') as (rs & st' & -> & HT2 & HH). rewrite bind_Ok.
    exists ((r, l) :: rs), st'. split; [reflexivity|]. split; [constructor; [exact HT|exact HT2]|].
    intros j0. destruct (C69_no_trace hw leave junk j0 E st n HL HE HI) as (r2 & st2 & l2 & E2 & E3 & _). rewrite E3, bind_Ok.
    assert (r2 = r) as -> by congruence. assert (st2 = st1) as -> by congruence. rewrite HH, bind_Ok. reflexivity.
Qed.

(** Hypotheses met: a first request of 40 bytes in an environment that delivers (short reads) and whose RDRAND works. *)
Example C69_hyps (hw : sha_hw) (junk : nat -> nat -> N) :
  in_bounds (fun _ _ t => map (fun x => x + 1) t) /\ env_bytes example_env /\ drbg_inv drbg_initial /\
  (ce_rdrand example_env = true -> forall k i, (i < 8)%nat -> ce_step example_env k i <> None) /\
  (forall k, (exists d, seed_of example_env k 48 d) /\ exists d, seed_of example_env k 32 d) /\
  exists d st l, mem_crypto_entropy_read hw (fun _ _ t => map (fun x => x + 1) t) junk example_env drbg_initial 40 = Ok (Some d, st, l) /\ length d = 40%nat.
Proof.
  destruct C33_hyps as [HE HI].
  assert (in_bounds (fun _ _ t => map (fun x => x + 1) t)) as HL by (intros s b t H; rewrite map_length; exact H).
  assert (forall k len, (len = 48 \/ len = 32)%nat -> exists d, seed_of example_env k len d) as HS.
  { intros k len Hn. assert (N.of_nat len <= SSIZE_MAX) as HZ by (unfold SSIZE_MAX; destruct Hn as [-> | ->]; lia).
    destruct (entropy_read_cases example_env k len HE HZ) as [(d & _ & _ & Hs & _)|(ev & Er & _)]; [eauto|].
    exfalso. destruct Hn as [-> | ->]; vm_compute in Er; discriminate Er. }
  split; [exact HL|]. split; [exact HE|]. split; [exact HI|]. split; [intros _ k i _; discriminate|]. split; [auto|].
  destruct (C69_no_trace hw _ junk (fun _ => 0) example_env drbg_initial 40 HL HE HI) as (r & st & l & E1 & E2 & _).
  destruct (C33_succeeds hw (fun _ => 0) example_env drbg_initial 40 HE HI HS) as (d & st' & E3 & HD & _).
  assert (r = Some d) as -> by congruence. exists d, st, l. auto.
Qed.
Definition Prop_entropy_mem_all := (C69_no_trace, C69_blank, C69_unused, C69_history).
Print Assumptions Prop_entropy_mem_all.
