(** C73: input and output of the cipher and of the buffer functions anywhere in memory. *)
From Verif Require Import Base SpecBytes SpecSHA SpecScrypt SpecScryptAPI SpecAES SpecDRBG SpecFormat
  M_sha256 P_sha256 M_aes_hw M_aesctr P_aes P_aesctr P_scrypt_ref M_scrypt_sel M_entropy P_entropy M_machine M_double M_memlimit M_cpuperf
  M_humansize M_params Prop_params M_stdio P_stdio M_scryptenc SpecScryptenc P_scryptenc P_scryptenc4 Prop_aes Prop_enc
  M_aesctr_mem P_aesctr_mem Prop_aesctr_mem P_aesctr_ovl P_aesctr_any M_scryptenc_ovl P_scryptenc_ovl Prop_scryptenc_ovl P_scryptenc_ovl3.
Local Opaque ENCBLOCK.

(* ------------------------------------------------------------------ *)
(** * Specification *)

(** Memory [m'] is as large as [m] and equal to it outside the [n] bytes at [a]. *)
Definition only_here (m m' : bytes) (a n : nat) : Prop :=
  length m' = length m /\ forall x, (x < a \/ a + n <= x)%nat -> nth_error m' x = nth_error m x.
(** [read] is what a call that reads [n] bytes at [inp], and writes [before] bytes
    at [outp] first and then one more for every byte read, can have seen: each byte
    is the one that was there before the call, or, if the call has written to that
    place by then, possibly the one it leaves there. *)
Definition seen (m m' : bytes) (inp outp before n : nat) (read : bytes) : Prop :=
  bytes_ok read /\ length read = n /\
  forall k, (k < n)%nat -> nth_error read k = nth_error m (inp + k) \/
    (outp <= inp + k < outp + before + k)%nat /\ nth_error read k = nth_error m' (inp + k).

(** Unless it looks where the call has been writing, it sees what was there. *)
Theorem C73_seen_apart m m' inp outp before n read : (inp + n <= length m)%nat -> seen m m' inp outp before n read ->
  (inp + n <= outp \/ outp + before <= inp)%nat -> read = block m inp n.
Proof.
  intros HI (_ & HL & H) HP. change (block m inp n) with (sub m inp n). apply list_ext. intros k. rewrite nth_error_sub by exact HI.
  destruct (Nat.ltb_spec k n) as [Hk|Hk]; [|apply nth_error_None; lia]. destruct (H k Hk) as [E|[HR _]]; [exact E|lia].
Qed.

(* ------------------------------------------------------------------ *)
(** ** The cipher *)

(** Call after call on one stream, each on its own memory: what each leaves is the
    next piece of the key stream applied to what it saw. *)
Inductive explained (key : bytes) (nonce : N) : N -> list bufs -> list bytes -> Prop :=
| ex_nil pos : explained key nonce pos [] []
| ex_cons pos b bs m ms read : only_here (b_mem b) m (b_out b) (b_len b) -> bytes_ok m ->
    seen (b_mem b) m (b_in b) (b_out b) 0 (b_len b) read ->
    block m (b_out b) (b_len b) = aes_ctr key nonce pos read ->
    explained key nonce (pos + N.of_nat (b_len b)) bs ms -> explained key nonce pos (b :: bs) (m :: ms).
Definition total (calls : list bufs) : N := fold_right (fun b t => N.of_nat (b_len b) + t) 0 calls.
Lemma explained_ok hw hi key nonce : (length key = 16 \/ length key = 32)%nat -> bytes_ok key -> forall calls pos st, stream_at hw key nonce pos st ->
  Forall fits calls -> Forall (fun b => bytes_ok (b_mem b)) calls -> pos + total calls < 2 ^ 64 ->
  exists ms st', mem_calls hw hi st calls = Ok (ms, st') /\ explained key nonce pos calls ms.
Proof.
  intros HK HB. induction calls as [|b t IH]; intros pos st HA HF HM HO; cbn [mem_calls].
  - exists [], st. split; [reflexivity|constructor].
  - inversion HF as [|? ? F HF']; subst. inversion HM as [|? ? OM HM']; subst. cbn [total fold_right] in HO. fold (total t) in HO. pose proof F as [F1 F2].
    assert (length (sub (b_mem b) (b_in b) (b_len b)) = b_len b) as LI by (apply sub_length; exact F1).
    destruct (stream_any_read hw hi key nonce pos st b _ HK HB OM HA F LI ltac:(lia)) as (m & st1 & read & E & E1 & LM & LR & OM1 & OR & HX & EC & HR).
    destruct (stream_ok hw hi key nonce pos st _ HA ltac:(rewrite LI; lia)) as (st1' & E1' & HA1). rewrite LI in HA1.
    assert (st1' = st1) as -> by congruence.
    destruct (IH _ _ HA1 HF' HM' ltac:(lia)) as (ms & st' & E2 & HE). rewrite E, bind_Ok, E2, bind_Ok.
    eexists _, st'. split; [reflexivity|]. apply (ex_cons _ _ _ _ _ _ _ read); auto; [split; [exact LM|exact HX]|].
    split; [exact OR|]. split; [exact LR|]. intros k Hk. rewrite Nat.add_0_r. apply HR, Hk.
Qed.
Theorem C73_stream_anywhere hw hi key old obuf opblk nonce calls :
  (length key = 16 \/ length key = 32)%nat -> bytes_ok key -> length old = 15%nat ->
  length obuf = 16%nat -> length opblk = 16%nat ->
  (forall b, In b calls -> inside (b_mem b) (b_in b) (b_len b) /\ inside (b_mem b) (b_out b) (b_len b) /\ bytes_ok (b_mem b)) ->
  total calls < 2 ^ 64 ->
  exists k st ms st',
    crypto_aes_key_expand hw true old key (length key) = Ok (Some k) /\
    crypto_aesctr_init true obuf opblk k nonce = Ok (Some st) /\
    mem_calls hw hi st calls = Ok (ms, st') /\ explained key nonce 0 calls ms.
Proof.
  intros HL HB HO Hb Hp HF Hlen.
  destruct (expand_rep hw key old HL HB HO) as (k & Ek & Hk).
  destruct (init2_ok hw key k nonce None obuf opblk Hk Hb Hp) as (st & Es & Hs).
  destruct (explained_ok hw hi key nonce HL HB calls 0 st Hs) as (ms & st' & E1 & E2).
  - apply Forall_forall. intros b Hi. destruct (HF b Hi) as (H1 & H2 & _). split; assumption.
  - apply Forall_forall. intros b Hi. apply HF, Hi.
  - lia.
  - exists k, st, ms, st'. unfold crypto_aesctr_init. cbn [negb]. rewrite Es, bind_Ok. auto.
Qed.

(* ------------------------------------------------------------------ *)
(** ** Encryption and decryption of a buffer *)

Theorem C73_enc_anywhere M cfg lb hp e m inp n outp passwd P verbose force o :
  enc_ready M lb hp e passwd P -> bytes_ok m -> N.of_nat n < 2 ^ 64 -> inside m inp n -> inside m outp (n + 128) ->
  scryptenc_buf M cfg lb hp e (block m inp n) (block m outp (n + 128)) passwd P verbose force = Ok o ->
  exists o', ovl_scryptenc_buf M cfg lb hp e m inp n outp passwd P verbose force = Ok o' /\
    same_side_effects o o' /\ oc_rc o' = oc_rc o /\ only_here m (oc_val o') outp (n + 128) /\
    (oc_rc o = SCRYPT_OK -> exists h read, fhead_ok h /\ computable M h /\ seen m (oc_val o') inp outp 96 n read /\
       block (oc_val o') outp (n + 128) = fmt_file scrypt_wrapping passwd h read).
Proof.
  unfold inside. intros [[Hs HPW HH] HXP HE HD] HM Hn HI HO E.
  destruct (ovl_enc_any M cfg lb hp e m inp n outp passwd P verbose force o Hs HXP HPW HE HD HH HM Hn HI HO E)
    as (o' & E1 & R & S1 & S2 & S3 & S4 & S5 & L & _ & X & K).
  exists o'. split; [exact E1|]. split; [unfold same_side_effects; auto|]. split; [exact R|]. split; [split; assumption|].
  intros ER. destruct (K ER) as (h & read & H1 & H2 & H3 & H4 & H5 & H6). exists h, read. split; [exact H1|]. split; [exact H2|]. split; [|exact H5].
  split; [exact H3|]. split; assumption.
Qed.
(** The file it leaves is a valid one: decrypting it gives back what was seen. *)
Theorem C73_enc_decrypts M cfg lb hp e m inp n outp passwd P verbose force o hp2 e2 lb2 outbuf outlen P2 :
  enc_ready M lb hp e passwd P -> bytes_ok m -> N.of_nat (n + 128) < 2 ^ 64 -> inside m inp n -> inside m outp (n + 128) ->
  scryptenc_buf M cfg lb hp e (block m inp n) (block m outp (n + 128)) passwd P verbose force = Ok o -> oc_rc o = SCRYPT_OK ->
  dec_ready M hp2 passwd -> all_zero P2 = true -> no_failure e2 -> length outbuf = n ->
  exists o' read o2, ovl_scryptenc_buf M cfg lb hp e m inp n outp passwd P verbose force = Ok o' /\ oc_rc o' = SCRYPT_OK /\
    seen m (oc_val o') inp outp 96 n read /\
    scryptdec_buf M cfg lb2 hp2 e2 (block (oc_val o') outp (n + 128)) outbuf outlen passwd P2 verbose true = Ok o2 /\
    oc_rc o2 = SCRYPT_OK /\ oc_val o2 = (read, N.of_nat n).
Proof.
  intros HR HM Hn HI HO E ER HD2 HP2 HN2 LO.
  destruct (C73_enc_anywhere M cfg lb hp e m inp n outp passwd P verbose force o HR HM ltac:(lia) HI HO E) as (o' & E1 & _ & R & _ & K).
  destruct (K ER) as (h & read & Hh & Hc & HS & EF). pose proof HS as (OR & LR & _).
  assert (length (fmt_file scrypt_wrapping passwd h read) = (length read + 128)%nat) as LF by (apply P_scryptenc4.fmt_file_length; apply Hh).
  destruct (C05_accepts_iff M cfg lb2 hp2 e2 (fmt_file scrypt_wrapping passwd h read) outbuf outlen passwd P2 verbose HD2) as (o2 & E2 & HA & HV); auto.
  { split; [apply fmt_file_ok; assumption|rewrite LF, LR; exact Hn]. }
  { lia. }
  exists o', read, o2. split; [exact E1|]. split; [congruence|]. split; [exact HS|]. rewrite EF. split; [exact E2|]. split; [apply HA; eauto|].
  destruct (HV _ _ eq_refl Hh Hc) as [-> _]. rewrite LR, skipn_all2, app_nil_r by lia. reflexivity.
Qed.

Theorem C73_dec_anywhere M cfg lb hp e m inp n outp outlen passwd P verbose force o :
  dec_ready M hp passwd -> bytes_ok m -> N.of_nat n < 2 ^ 64 -> inside m inp n -> inside m outp (n - 128) ->
  let f := block m inp n in
  let K := key_hmac scrypt_wrapping passwd (get_head f) in
  scryptdec_buf M cfg lb hp e f (block m outp (n - 128)) outlen passwd P verbose force = Ok o ->
  exists o', ovl_scryptdec_buf M cfg lb hp e m inp n outp outlen passwd P verbose force = Ok o' /\
    let m' := fst (oc_val o') in
    same_side_effects o o' /\ snd (oc_val o') = snd (oc_val o) /\ only_here m m' outp (n - 128) /\
    ((oc_rc o' = oc_rc o /\ oc_rc o <> SCRYPT_OK /\ m' = m) \/
     ((128 <= n)%nat /\ (oc_rc o = SCRYPT_OK \/ oc_rc o = SCRYPT_EINVAL) /\ (oc_rc o' = SCRYPT_OK \/ oc_rc o' = SCRYPT_EINVAL) /\
      (oc_rc o' = SCRYPT_OK <-> hmac K (block m' inp (n - 32)) = block m' (inp + (n - 32)) 32) /\
      exists read, seen m m' (inp + 96) outp 0 (n - 128) read /\
        block m' outp (n - 128) = aes_ctr (key_enc scrypt_wrapping passwd (get_head f)) 0 0 read)).
Proof.
  intros [Hs HPW HH] HM Hn HI HO f K E. unfold inside in HI, HO.
  destruct (ovl_dec_any M cfg lb hp e m inp n outp outlen passwd P verbose force o Hs HPW HH HM Hn HI HO E)
    as (o' & E1 & S1 & S2 & S3 & S4 & S5 & V & D).
  exists o'. split; [exact E1|]. cbv zeta. split; [unfold same_side_effects; auto|]. split; [exact V|].
  destruct D as [(R1 & R2 & R3)|(H128 & R1 & R2 & L & OM & X & R3 & read & LR & OR & EC & HR)].
  - split; [rewrite R3; split; [reflexivity|intros; reflexivity]|]. left. auto.
  - split; [split; assumption|]. right. split; [exact H128|]. split; [exact R1|]. split; [exact R2|]. split; [exact R3|].
    exists read. split; [|exact EC]. split; [exact OR|]. split; [exact LR|]. intros k Hk. rewrite Nat.add_0_r. apply HR, Hk.
Qed.

(** The input in the middle of the output, and a stream call writing ahead of what it reads. *)
Definition ex_mem : bytes := repeat 0 100 ++ ex_data ++ repeat 0 100.
Example C73_hyps :
  enc_ready ex_machine ex_lib ex_heap ex_call ex_passwd ex_P /\ bytes_ok ex_mem /\ inside ex_mem 100 5 /\ inside ex_mem 3 (5 + 128) /\
  (exists o, scryptenc_buf ex_machine ex_cfg ex_lib ex_heap ex_call (block ex_mem 100 5) (block ex_mem 3 (5 + 128)) ex_passwd ex_P true true = Ok o /\ oc_rc o = SCRYPT_OK) /\
  forall b, In b [mk_bufs (repeat 7 64) 3 4 40; mk_bufs (repeat 7 64) 0 17 20] ->
    inside (b_mem b) (b_in b) (b_len b) /\ inside (b_mem b) (b_out b) (b_len b) /\ bytes_ok (b_mem b).
Proof.
  split; [apply ex_enc_ready; split; reflexivity|]. split; [repeat constructor|]. split; [unfold inside; cbn; lia|]. split; [unfold inside; cbn; lia|]. split.
  - destruct ex_salt as (salt & d & E & L & B).
    refine (C02_succeeds ex_machine ex_cfg ex_lib ex_heap ex_call (block ex_mem 100 5) (block ex_mem 3 (5 + 128)) ex_passwd ex_P true true _ _ _ salt d eq_refl ex_no_failure eq_refl E _).
    + apply ex_enc_ready. split; reflexivity.
    + split; [repeat constructor|reflexivity].
    + cbn. lia.
    + unfold computable. cbn [fh_logN fh_r fh_p ex_P x_logN x_r x_p ex_machine m_szb].
      change (Z.to_N 14) with 14. constructor; try (vm_compute; congruence); exists 14; split; [lia|reflexivity].
  - intros b [<-|[<-|[]]]; unfold inside; cbn [b_in b_out b_len b_mem]; rewrite !repeat_length; (split; [lia|split; [lia|repeat constructor]]).
Qed.
Definition Prop_scryptenc_any_all := (C73_stream_anywhere, C73_enc_anywhere, C73_enc_decrypts, C73_dec_anywhere, C73_seen_apart).
Print Assumptions Prop_scryptenc_any_all.
