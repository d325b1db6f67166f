(** C55: key derivation gives back the memory it takes. *)
From Verif Require Import Base SpecScrypt M_smix P_scrypt P_scrypt_ref Prop_scrypt M_scrypt_alloc.

(** A memory state an allocator can be in: numbers of live regions have been handed out. *)
Definition amem_ok (h : amem) : Prop := Forall (fun g => (rg_id g < am_next h)%nat) (am_live h).
(** Region [i] is live in [h], of kind [k] and with at least [n] bytes. *)
Definition holds (h : amem) (i : nat) (k : rkind) (n : N) : Prop :=
  exists g, In g (am_live h) /\ rg_id g = i /\ rg_kind g = k /\ n <= rg_size g.

Lemma find_head i g l : rg_id g = i -> am_find i (g :: l) = Some g.
Proof. intros E. cbn [am_find]. rewrite E, Nat.eqb_refl. reflexivity. Qed.
Lemma find_skip i g l : rg_id g <> i -> am_find i (g :: l) = am_find i l.
Proof. intros E. cbn [am_find]. destruct (Nat.eqb_spec i (rg_id g)); [congruence|reflexivity]. Qed.
Lemma filter_old i l n : Forall (fun g => (rg_id g < n)%nat) l -> (n <= i)%nat -> filter (fun g => negb (Nat.eqb i (rg_id g))) l = l.
Proof.
  intros H Hi. induction H as [|g l Hg Hl IH]; [reflexivity|]. cbn [filter]. destruct (Nat.eqb_spec i (rg_id g)); [lia|]. cbn [negb]. f_equal. exact IH.
Qed.
Ltac am := cbn [obtain free_ munmap_ am_find am_live am_next rg_id Nat.eqb am_remove filter negb rg_size bind].

Lemma eqb_S n : Nat.eqb (S n) n = false. Proof. apply Nat.eqb_neq. lia. Qed.
Lemma eqb_S' n : Nat.eqb n (S n) = false. Proof. apply Nat.eqb_neq. lia. Qed.
Lemma eqb_SS n : Nat.eqb (S (S n)) n = false. Proof. apply Nat.eqb_neq. lia. Qed.
Lemma eqb_SS' n : Nat.eqb n (S (S n)) = false. Proof. apply Nat.eqb_neq. lia. Qed.
Ltac am_all := repeat (unfold obtain, free_, munmap_, am_remove; cbn [am_find am_live am_next rg_id rg_size rg_kind filter negb bind];
  rewrite ?Nat.eqb_refl, ?eqb_S, ?eqb_S', ?eqb_SS, ?eqb_SS', ?N.eqb_refl; cbn [am_find am_live am_next rg_id rg_size rg_kind filter negb bind]).

(** Whatever fails: memory on return is what it was on entry, except that a
    mapping that cannot be unmapped remains; nothing is released twice or that
    was not obtained here (that would be undefined).  When the computation is
    carried out, three distinct regions are live that were not before, and each
    has room for what is stored in it, the malloc() variants with 63 bytes to
    spare for alignment. *)
Theorem C55_memory_returned : forall cfg szb env N_ r p buflen h, size_bits szb -> N_ < 2 ^ 64 -> r < 2 ^ 32 -> p < 2 ^ 32 -> buflen < 2 ^ szb -> amem_ok h ->
  exists rc used h', scrypt_alloc cfg szb env N_ r p buflen h = Ok (rc, used, h') /\
    (rc <> SC_MUNMAP -> am_live h' = am_live h) /\
    (rc = SC_MUNMAP -> mc_mmap cfg = true /\ al_unmap env = false /\
       exists v, am_live h' = v :: am_live h /\ rg_kind v = R_map /\ rg_size v = 128 * r * N_) /\
    (rc = SC_OK \/ rc = SC_MUNMAP -> exists ws hw, used = Some (ws, hw)) /\
    (forall ws hw, used = Some (ws, hw) ->
       let slack := if mc_memalign cfg then 0 else 63 in
       ws_B ws <> ws_XY ws /\ ws_B ws <> ws_V ws /\ ws_XY ws <> ws_V ws /\
       holds hw (ws_B ws) R_heap (128 * r * p + slack) /\ holds hw (ws_XY ws) R_heap (256 * r + 64 + slack) /\
       holds hw (ws_V ws) (if mc_mmap cfg then R_map else R_heap) (128 * r * N_ + (if mc_mmap cfg then 0 else slack)) /\
       (forall g, In g (am_live h) -> In g (am_live hw) /\ rg_id g <> ws_B ws /\ rg_id g <> ws_XY ws /\ rg_id g <> ws_V ws)).
Proof.
  intros cfg szb env N_ r p buflen h Hs HN Hr Hp Hb Hh. unfold scrypt_alloc.
  destruct (scrypt_checks szb N_ r p buflen) as [e|] eqn:EC.
  { exists e, None, h. split; [reflexivity|].
    assert (e <> SC_OK /\ e <> SC_MUNMAP) as [E1 E2].
    { unfold scrypt_checks in EC. repeat match type of EC with (if ?c then _ else _) = _ => destruct c end; split; congruence. }
    split; [reflexivity|]. split; [contradiction|]. split; [intros [H|H]; contradiction|]. discriminate. }
  apply scrypt_checks_spec in EC; auto. destruct (scrypt_sizes szb N_ r p buflen Hs EC) as (S1 & S2 & S3 & _ & S5 & S6 & S7 & _).
  rewrite S1, S2, S3. unfold request, wsz.
  assert ((if mc_memalign cfg then 128 * r * p else (128 * r * p + 63) mod 2 ^ szb) = 128 * r * p + (if mc_memalign cfg then 0 else 63)) as -> by (destruct (mc_memalign cfg); [lia|apply N.mod_small; lia]).
  assert ((if mc_memalign cfg then 256 * r + 64 else (256 * r + 64 + 63) mod 2 ^ szb) = 256 * r + 64 + (if mc_memalign cfg then 0 else 63)) as -> by (destruct (mc_memalign cfg); [lia|apply N.mod_small; lia]).
  assert ((if mc_memalign cfg then 128 * r * N_ else (128 * r * N_ + 63) mod 2 ^ szb) = 128 * r * N_ + (if mc_memalign cfg then 0 else 63)) as -> by (destruct (mc_memalign cfg); [lia|apply N.mod_small; lia]).
  set (sl := if mc_memalign cfg then 0 else 63). clearbody sl. clear S1 S2 S3 S5 S6 S7 EC Hb Hr Hp HN Hs.
  destruct h as [n l]. unfold amem_ok in Hh. cbn [am_live am_next] in Hh.
  pose proof (filter_old n l n Hh ltac:(lia)) as F1. pose proof (filter_old (S n) l n Hh ltac:(lia)) as F2. pose proof (filter_old (S (S n)) l n Hh ltac:(lia)) as F3.
  destruct (al_B env).
  2:{ am_all. exists SC_ENOMEM, None, (mk_am n l). split; [reflexivity|]. split; [reflexivity|]. split; [discriminate|]. split; [intros [H|H]; discriminate|discriminate]. }
  destruct (al_XY env).
  2:{ am_all. rewrite F1. exists SC_ENOMEM, None. eexists. split; [reflexivity|]. split; [reflexivity|]. split; [discriminate|]. split; [intros [H|H]; discriminate|discriminate]. }
  destruct (al_V env).
  2:{ am_all. assert (forall (x : bool) (A : Type) (y : A), (if x then y else y) = y) as HX by (intros [|]; reflexivity).
      rewrite HX. am_all. rewrite F2. am_all. rewrite F1. exists SC_ENOMEM, None. eexists. split; [reflexivity|]. split; [reflexivity|]. split; [discriminate|]. split; [intros [H|H]; discriminate|discriminate]. }
  assert (forall k z, let hw := mk_am (S (S (S n))) (mk_rg (S (S n)) k z :: mk_rg (S n) R_heap (256 * r + 64 + sl) :: mk_rg n R_heap (128 * r * p + sl) :: l) in
    forall n', n' <= z ->
       n <> S n /\ n <> S (S n) /\ S n <> S (S n) /\
       holds hw n R_heap (128 * r * p + sl) /\ holds hw (S n) R_heap (256 * r + 64 + sl) /\
       holds hw (S (S n)) k n' /\
       (forall g, In g l -> In g (am_live hw) /\ rg_id g <> n /\ rg_id g <> S n /\ rg_id g <> S (S n))) as HW.
  { intros k z hw n' Hz. repeat (split; [lia|]). unfold holds, hw. cbn [am_live].
    split; [eexists; split; [right; right; left; reflexivity|]; repeat split; cbn; lia|].
    split; [eexists; split; [right; left; reflexivity|]; repeat split; cbn; lia|].
    split; [eexists; split; [left; reflexivity|]; repeat split; cbn; lia|].
    intros g Hg. rewrite Forall_forall in Hh. specialize (Hh g Hg). split; [right; right; right; exact Hg|]. lia. }
  destruct (mc_mmap cfg).
  - am_all. destruct (al_unmap env); am_all; rewrite ?F3; am_all; rewrite ?F2; am_all; rewrite ?F1.
    + exists SC_OK. eexists _, _. split; [reflexivity|]. split; [reflexivity|]. split; [discriminate|]. split; [eauto|].
      intros ws hw E. injection E as <- <-. cbn [ws_B ws_XY ws_V]. apply HW. lia.
    + exists SC_MUNMAP. eexists _, _. split; [reflexivity|]. split; [congruence|]. split; [intros _; repeat split; eexists; repeat split; reflexivity|]. split; [eauto|].
      intros ws hw E. injection E as <- <-. cbn [ws_B ws_XY ws_V]. apply HW. lia.
  - am_all. rewrite F3. am_all. rewrite F2. am_all. rewrite F1.
    exists SC_OK. eexists _, _. split; [reflexivity|]. split; [reflexivity|]. split; [discriminate|]. split; [eauto|].
    intros ws hw E. injection E as <- <-. cbn [ws_B ws_XY ws_V]. apply HW. lia.
Qed.
Print Assumptions C55_memory_returned.

(** The reference implementation (defined for r, p > 0: it divides by them). *)
Theorem C55_reference : forall szb env N_ r p buflen h rc used h', amem_ok h ->
  scrypt_alloc_ref szb env N_ r p buflen h = Ok (rc, used, h') ->
  am_live h' = am_live h /\
  (forall ws hw, used = Some (ws, hw) -> rc = SC_OK /\
     holds hw (ws_B ws) R_heap (size_B szb r p) /\ holds hw (ws_XY ws) R_heap (wsz szb (256 * r)) /\ holds hw (ws_V ws) R_heap (size_V szb r N_)).
Proof.
  intros szb env N_ r p buflen h rc used h' Hh E. unfold scrypt_alloc_ref in E.
  destruct (scrypt_checks_ref szb N_ r p buflen) as [[e|]| |]; cbn [bind] in E; try discriminate.
  { assert (h' = h) as -> by congruence. assert (used = None) as -> by congruence. split; [reflexivity|discriminate]. }
  destruct h as [n l]. unfold amem_ok in Hh. cbn [am_live am_next] in Hh.
  pose proof (filter_old n l n Hh ltac:(lia)) as F1. pose proof (filter_old (S n) l n Hh ltac:(lia)) as F2. pose proof (filter_old (S (S n)) l n Hh ltac:(lia)) as F3.
  set (sB := size_B szb r p) in *. set (sX := wsz szb (256 * r)) in *. set (sV := size_V szb r N_) in *. clearbody sB sX sV.
  destruct (al_B env); [destruct (al_XY env); [destruct (al_V env)|]|]; revert E; am_all; rewrite ?F3; am_all; rewrite ?F2; am_all; rewrite ?F1; intros E;
    (assert (am_live h' = l) as -> by (injection E as <- <- <-; reflexivity)); (split; [reflexivity|]); intros ws hw EU; subst used; injection E; intros; try discriminate.
  subst. split; [reflexivity|]. unfold holds. cbn [ws_B ws_XY ws_V am_live].
  split; [eexists; split; [right; right; left; reflexivity|]; repeat split; cbn; lia|].
  split; [eexists; split; [right; left; reflexivity|]; repeat split; cbn; lia|].
  eexists; split; [left; reflexivity|]; repeat split; cbn; lia.
Qed.
Print Assumptions C55_reference.

(** This is the memory management of the derivation itself: whenever
    crypto_scrypt returns, it returns this code (builds without mmap have no
    munmap to fail). *)
Theorem C55_same_function : forall cfg szb sh junk smix env passwd salt N_ r p buf buflen h rc used h' rc' buf',
  (mc_mmap cfg = false -> al_unmap env = true) ->
  scrypt_alloc cfg szb env N_ r p buflen h = Ok (rc, used, h') ->
  crypto_scrypt_internal szb sh junk smix env passwd salt N_ r p buf buflen = Ok (rc', buf') ->
  rc' = rc /\ (used = None -> buf' = buf).
Proof.
  intros cfg szb sh junk smix env passwd salt N_ r p buf buflen h rc used h' rc' buf' HU E E'.
  unfold scrypt_alloc in E. unfold crypto_scrypt_internal in E'. destruct (scrypt_checks szb N_ r p buflen) as [e|].
  { split; [congruence|]. intros _. congruence. }
  unfold obtain in E. destruct (al_B env); cbn [negb] in E'; [|split; [congruence|intros _; congruence]].
  destruct (al_XY env); cbn [negb] in E'.
  2:{ destruct (free_ _ _) in E; cbn [bind] in E; [|discriminate|discriminate]. split; [congruence|intros _; congruence]. }
  destruct (al_V env); cbn [negb] in E'.
  2:{ assert (forall (x : bool) (A : Type) (y : A), (if x then y else y) = y) as HX by (intros [|]; reflexivity). rewrite HX in E.
      destruct (free_ _ _) in E; cbn [bind] in E; [|discriminate|discriminate]. destruct (free_ _ _) in E; cbn [bind] in E; [|discriminate|discriminate].
      split; [congruence|intros _; congruence]. }
  repeat match type of E' with bind ?m _ = _ => destruct m as [?| |]; cbn [bind] in E'; [|discriminate E'|discriminate E'] end.
  assert (rc' = if al_unmap env then SC_OK else SC_MUNMAP) as -> by congruence.
  destruct (mc_mmap cfg).
  - destruct (munmap_ _ _ _ _) as [[ok h1]| |] eqn:EM in E; cbn [bind] in E; [|discriminate|discriminate].
    assert (ok = al_unmap env) as ->.
    { unfold munmap_ in EM. destruct (am_find _ _) as [[? [|] ?]|]; try discriminate. destruct (_ =? _); [congruence|discriminate]. }
    destruct (free_ _ _) in E; cbn [bind] in E; [|discriminate|discriminate]. destruct (free_ _ _) in E; cbn [bind] in E; [|discriminate|discriminate].
    split; [congruence|]. intros ->. discriminate.
  - rewrite (HU eq_refl). destruct (free_ _ _) in E; cbn [bind] in E; [|discriminate|discriminate].
    destruct (free_ _ _) in E; cbn [bind] in E; [|discriminate|discriminate]. destruct (free_ _ _) in E; cbn [bind] in E; [|discriminate|discriminate].
    split; [congruence|]. intros ->. discriminate.
Qed.
Print Assumptions C55_same_function.

(** N = 16384, r = 8, p = 1 on a 64-bit machine, with other memory in use. *)
Example C55_hyps : exists ws hw, amem_ok (mk_am 7 [mk_rg 3 R_heap 100; mk_rg 6 R_map 4096]) /\
  scrypt_alloc (mk_mc true true) 64 (mk_alloc true true true true) 16384 8 1 64 (mk_am 7 [mk_rg 3 R_heap 100; mk_rg 6 R_map 4096]) =
  Ok (SC_OK, Some (ws, hw), mk_am 10 [mk_rg 3 R_heap 100; mk_rg 6 R_map 4096]) /\ length (am_live hw) = 5%nat.
Proof. eexists _, _. split; [repeat constructor|]. split; [vm_compute; reflexivity|reflexivity]. Qed.
Definition Prop_scrypt_alloc_all := (C55_memory_returned, C55_reference, C55_same_function).
Print Assumptions Prop_scrypt_alloc_all.
