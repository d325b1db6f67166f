(** C70: what the encryption and decryption functions leave in their own memory. *)
From Verif Require Import Base SpecBytes SpecSHA SpecScrypt SpecScryptAPI SpecAES SpecDRBG SpecFormat SpecStream
  M_sha256_tr M_simd M_sha256_hw M_sha256 M_aes_hw M_aesctr P_scrypt_ref M_scrypt_sel M_entropy P_entropy M_machine M_double M_memlimit M_cpuperf
  M_humansize P_humansize M_params Prop_params M_stdio P_stdio M_scryptenc SpecScryptenc P_scryptenc P_scryptenc5 Prop_enc
  M_memzero P_memzero M_sha256_mem P_sha256_mem Prop_sha256_mem M_entropy_mem P_entropy_mem M_scryptenc_mem P_scryptenc_mem P_scryptenc_mem2.
Local Opaque ENCBLOCK.

(* ------------------------------------------------------------------ *)
(** * Specification *)

(** [m] is a part of [F]. *)
Definition part_of (F m : bytes) : Prop := exists a b, F = a ++ m ++ b.
(** An array that is as found or a part of the encrypted file [F]. *)
Definition known (F found m : bytes) : Prop := m = found \/ part_of F m.
(** An array whose beginning was overwritten, any number of times, by parts of
    the encrypted file. *)
Inductive overwritten (F found : bytes) : bytes -> Prop :=
| ow_found : overwritten F found found
| ow_again b c : overwritten F found b -> part_of F c -> (length c <= length b)%nat -> overwritten F found (c ++ skipn (length c) b).
(** A hash context that is as found or blank. *)
Definition sha_idle (found c : sha_ctx) : Prop := c = found \/ blank_sha c.
Definition hmac_idle (found c : hmac_ctx) : Prop := c = found \/ blank_hmac c.
(** Everything recorded about the callees' memory is blank. *)
Definition callees_blank (l : list piece) : Prop := Forall (fun p => Forall (fun b => b = 0) (snd p)) l.

(** The set-up function of encryption: contexts as found or blank, the hash
    buffer as found or in the file; after a success, contexts blank and salt and
    hash buffer in the file.  (After a failure the salt buffer holds a salt that
    was never used.) *)
Definition enc_setup_left (F : bytes) (sf sf' : setup_frame) (rc : rcode) : Prop :=
  known F (sf_hbuf sf) (sf_hbuf sf') /\ sha_idle (sf_ctx sf) (sf_ctx sf') /\ hmac_idle (sf_hctx sf) (sf_hctx sf') /\
  (rc = SCRYPT_OK -> part_of F (sf_salt sf') /\ part_of F (sf_hbuf sf') /\ blank_sha (sf_ctx sf') /\ blank_hmac (sf_hctx sf')).
(** That of decryption.  (With a wrong passphrase, the hash buffer holds the
    HMAC of the header under the key derived from the wrong passphrase.) *)
Definition dec_setup_left (F : bytes) (sf sf' : setup_frame) (rc : rcode) : Prop :=
  known F (sf_salt sf) (sf_salt sf') /\ sha_idle (sf_ctx sf) (sf_ctx sf') /\ hmac_idle (sf_hctx sf) (sf_hctx sf') /\
  (rc <> SCRYPT_EPASS -> known F (sf_hbuf sf) (sf_hbuf sf') \/ sf_hbuf sf' = sha256 (firstn 48 F)) /\
  (rc = SCRYPT_OK -> part_of F (sf_salt sf') /\ part_of F (sf_hbuf sf') /\ blank_sha (sf_ctx sf') /\ blank_hmac (sf_hctx sf')).

(* ------------------------------------------------------------------ *)
Lemma part_refl F : part_of F F.
Proof. exists [], []. rewrite app_nil_r. reflexivity. Qed.
Lemma part_sub F o n : part_of F (sub F o n).
Proof. exists (firstn o F), (skipn n (skipn o F)). unfold sub. rewrite !firstn_skipn. reflexivity. Qed.
Lemma part_firstn F n : part_of F (firstn n F).
Proof. apply (part_sub F 0 n). Qed.
Lemma part_skipn F n : part_of F (skipn n F).
Proof. exists (firstn n F), []. rewrite app_nil_r, firstn_skipn. reflexivity. Qed.
Lemma part_trans F G m : part_of F G -> part_of G m -> part_of F m.
Proof. intros (a & b & ->) (c & d & ->). exists (a ++ c), (d ++ b). rewrite <- !app_assoc. reflexivity. Qed.
Lemma part_app a m b : part_of (a ++ m ++ b) m.
Proof. exists a, b. reflexivity. Qed.
Lemma part_concat cs c : In c cs -> part_of (concat cs) c.
Proof.
  intros H. apply in_split in H. destruct H as (a & b & ->). rewrite concat_app. cbn [concat]. apply part_app.
Qed.
Lemma overlay_overwritten F cs : forall b0 b, overwritten F b0 b -> Forall (part_of F) cs -> Forall (fun c => (length c <= length b)%nat) cs ->
  overwritten F b0 (overlay b cs).
Proof.
  induction cs as [|c cs IH]; intros b0 b HO HP HL; [exact HO|]. inversion HP as [|? ? P1 P2]; inversion HL as [|? ? L1 L2]; subst.
  change (overlay b (c :: cs)) with (overlay (c ++ skipn (length c) b) cs). apply IH; [apply ow_again; assumption|exact P2|].
  rewrite app_length, skipn_length. replace (length c + (length b - length c))%nat with (length b) by lia. exact L2.
Qed.
Lemma adds_nil l : adds clear [] l -> callees_blank l.
Proof. intros (x & -> & H). exact H. Qed.
Lemma idle_left F sf sf' rc : rc <> SCRYPT_OK -> idle sf sf' -> enc_setup_left F sf sf' rc.
Proof. intros HR (A & B & C). unfold enc_setup_left, known, sha_idle, hmac_idle. repeat split; auto; congruence. Qed.
Lemma spent_left F hd sf sf' rc : part_of F hd -> spent hd sf' -> enc_setup_left F sf sf' rc.
Proof.
  intros HP (A & B & C & D). unfold enc_setup_left, known, sha_idle, hmac_idle.
  assert (part_of F (sf_salt sf')) by (rewrite A; eapply part_trans; [exact HP|apply part_sub]).
  assert (part_of F (sf_hbuf sf')) by (rewrite B; eapply part_trans; [exact HP|apply part_sub]). auto 10.
Qed.
Lemma dec_spent_left F f sf sf' rc rc' : dec_spent rc f sf sf' -> part_of F f -> firstn 48 F = firstn 48 f ->
  (rc' = rc \/ rc = SCRYPT_OK) -> dec_setup_left F sf sf' rc'.
Proof.
  intros (A & B & C) HP HF HR. unfold dec_setup_left, known, sha_idle, hmac_idle.
  assert (part_of F (sf_salt sf')) as PA by (rewrite A; eapply part_trans; [exact HP|apply part_sub]).
  split; [auto|]. split; [auto|].
  destruct C as [(C1 & C2 & C3)|[(C1 & C2)|(C1 & C2)]].
  - destruct HR as [-> | HR]; [|congruence]. split; [auto|]. split; [intros _; right; rewrite HF; exact C2|congruence].
  - subst rc. destruct HR as [-> | HR]; [|discriminate]. split; [auto|]. split; [congruence|discriminate].
  - assert (part_of F (sf_hbuf sf')) as PB by (rewrite C1; eapply part_trans; [exact HP|apply part_sub]).
    split; [auto|]. split; auto 10.
Qed.
Lemma untouched_left F sf rc : rc <> SCRYPT_OK -> dec_setup_left F sf sf rc.
Proof. intros H. unfold dec_setup_left, known, sha_idle, hmac_idle. repeat split; auto; congruence. Qed.

(** Encrypting a buffer, whatever the outcome: no derived key, no key-dependent
    hash state and no plaintext remains in the memory of the function and its
    callees; what remains is as found or part of the output. *)
Theorem C70_enc_buf M cfg leave junk lb hp e data outbuf passwd P verbose force f sf o :
  in_bounds leave -> enc_ready M lb hp e passwd P -> data_ok data -> (length data + 128 <= length outbuf)%nat -> bf_ok f -> sf_ok sf ->
  scryptenc_buf M cfg lb hp e data outbuf passwd P verbose force = Ok o ->
  exists f' sf' l', mem_scryptenc_buf M cfg leave junk lb hp e data outbuf passwd P verbose force f sf [] = Ok (o, f', sf', l') /\
    callees_blank l' /\ oc_dk o = repeat 0 64 /\
    known (oc_val o) (bf_hbuf f) (bf_hbuf f') /\ known (oc_val o) (bf_header f) (bf_header f') /\ hmac_idle (bf_hctx f) (bf_hctx f') /\
    (oc_rc o = SCRYPT_OK -> blank_hmac (bf_hctx f')) /\ enc_setup_left (oc_val o) sf sf' (oc_rc o).
Proof.
  intros HL [[Hs HPW HH] HXP HE HDR] [HD1 HD2] HO HB HF E.
  destruct (mem_enc_buf_ok M cfg leave HL junk lb hp e data outbuf passwd P verbose force f sf [] o Hs HXP HPW HE HDR HH HD1 HD2 HO HB HF E)
    as (f' & sf' & l' & EM & A & D & C).
  exists f', sf', l'. split; [exact EM|]. split; [apply adds_nil, A|]. split; [exact D|]. unfold known, hmac_idle.
  destruct C as [(C1 & -> & C3)|[(C1 & -> & C3)|(C1 & C2 & C3 & C4 & C5)]].
  - split; [auto|]. split; [auto|]. split; [auto|]. split; [congruence|apply idle_left; assumption].
  - cbn [bf_hbuf bf_header bf_hctx]. split; [auto|]. split; [right; apply part_firstn|]. split; [auto|]. split; [congruence|].
    eapply spent_left; [apply part_firstn|exact C3].
  - rewrite C2, C3. split; [right; apply part_sub|]. split; [right; apply part_firstn|]. split; [auto|]. split; [auto|].
    eapply spent_left; [apply part_firstn|exact C5].
Qed.

(** Decrypting a buffer. *)
Theorem C70_dec_buf M cfg leave junk lb hp e f outbuf outlen passwd P verbose force fr sf o :
  in_bounds leave -> dec_ready M hp passwd -> data_ok f -> (length f - 128 <= length outbuf)%nat -> bf_ok fr -> sf_ok sf ->
  scryptdec_buf M cfg lb hp e f outbuf outlen passwd P verbose force = Ok o ->
  exists fr' sf' l', mem_scryptdec_buf M cfg leave junk lb hp e f outbuf outlen passwd P verbose force fr sf [] = Ok (o, fr', sf', l') /\
    callees_blank l' /\ (oc_dk o = repeat 0 64 \/ (oc_dk o = scratch_bytes (m_junk M) 64 /\ fr' = fr /\ sf' = sf)) /\
    hmac_idle (bf_hctx fr) (bf_hctx fr') /\ (oc_rc o <> SCRYPT_EINVAL -> known f (bf_hbuf fr) (bf_hbuf fr')) /\
    (oc_rc o = SCRYPT_OK -> oc_dk o = repeat 0 64 /\ blank_hmac (bf_hctx fr')) /\ dec_setup_left f sf sf' (oc_rc o).
Proof.
  intros HL [Hs HPW HH] [HD1 HD2] HO HB HF E.
  destruct (mem_dec_buf_ok M cfg leave HL junk lb hp e f outbuf outlen passwd P verbose force fr sf [] o Hs HPW HH HD1 HD2 HO HB HF E)
    as (f' & sf' & l' & EM & A & C).
  exists f', sf', l'. split; [exact EM|]. split; [apply adds_nil, A|]. unfold known, hmac_idle.
  destruct C as [(C1 & C2 & -> & ->)|[(C1 & C2 & -> & C3)|[(C1 & C2 & C3 & C4)|(C1 & C2 & C3 & C4 & C5)]]].
  - split; [auto|]. split; [auto|]. split; [auto|]. split; [congruence|]. apply untouched_left, C1.
  - split; [auto|]. split; [auto|]. split; [auto|]. split; [congruence|]. eapply dec_spent_left; [exact C3|apply part_refl|reflexivity|auto].
  - split; [auto|]. split; [auto|]. split; [congruence|]. split; [congruence|]. eapply dec_spent_left; [exact C4|apply part_refl|reflexivity|auto].
  - split; [auto|]. split; [auto|]. split; [rewrite C3; intros _; right; apply part_skipn|]. split; [auto|].
    eapply dec_spent_left; [exact C5|apply part_refl|reflexivity|auto].
Qed.

(** Encrypting a stream.  [F]: what was, or would have been, written.  The data
    buffer holds no plaintext.  (After a failure the HMAC context of the output
    may remain: see DESIGN.md.) *)
Theorem C70_enc_file M cfg leave junk lb hp e fi fo passwd P verbose force f sf o :
  in_bounds leave -> enc_ready M lb hp e passwd P -> input_ok fi -> N.of_nat (length (stream_data (no_errors fi))) < 2 ^ 64 ->
  ff_ok ENCBLOCK f -> sf_ok sf ->
  scryptenc_file M cfg lb hp e fi fo passwd P verbose force = Ok o ->
  exists f' sf' l' F, mem_scryptenc_file M cfg leave junk lb hp e fi fo passwd P verbose force f sf [] = Ok (o, f', sf', l') /\
    prefix (o_data (snd (oc_val o))) (o_data fo ++ F) /\ (oc_rc o = SCRYPT_OK -> o_data (snd (oc_val o)) = o_data fo ++ F) /\
    callees_blank l' /\ oc_dk o = repeat 0 64 /\
    overwritten F (ff_buf f) (ff_buf f') /\ known F (ff_hbuf f) (ff_hbuf f') /\ known F (ff_header f) (ff_header f') /\
    (oc_rc o = SCRYPT_OK -> blank_hmac (ff_hctx f')) /\ enc_setup_left F sf sf' (oc_rc o).
Proof.
  intros HL [[Hs HPW HH] HXP HE HDR] HI HD2 HB HF E.
  destruct (mem_enc_file_ok M cfg leave HL junk lb hp e fi fo passwd P verbose force f sf [] o Hs HXP HPW HE HDR HH HI HD2 HB HF E)
    as (f' & sf' & l' & EM & A & D & C). destruct HB as (G1 & _).
  destruct C as [(C1 & -> & C3 & C4)|(hd & cs & tag & C1 & C2 & C3 & C4 & C5 & C6 & C7)].
  - exists f, sf', l', []. split; [exact EM|]. rewrite C4, app_nil_r. split; [apply prefix_refl|]. split; [reflexivity|].
    split; [apply adds_nil, A|]. split; [exact D|]. unfold known. split; [constructor|]. split; [auto|]. split; [auto|].
    split; [congruence|apply idle_left; assumption].
  - exists f', sf', l', (hd ++ concat cs ++ tag). split; [exact EM|]. split; [exact C4|].
    assert (part_of (hd ++ concat cs ++ tag) hd) as P1 by apply (part_app [] hd).
    assert (part_of (hd ++ concat cs ++ tag) (concat cs)) as P2 by apply part_app.
    assert (part_of (hd ++ concat cs ++ tag) tag) as P3 by (exists (hd ++ concat cs), []; rewrite app_nil_r, <- app_assoc; reflexivity).
    split. { destruct C7 as [(C7 & _)|(_ & _ & C7)]; [congruence|exact C7]. }
    split; [apply adds_nil, A|]. split; [exact D|].
    split. { rewrite C6. apply overlay_overwritten; [constructor| |].
             - apply Forall_forall. intros c Hc. eapply part_trans; [exact P2|]. apply part_concat, Hc.
             - eapply Forall_impl; [|exact C3]. cbv beta. intros c Hc. lia. }
    unfold known. rewrite C5. split. { destruct C7 as [(_ & ->)|(-> & _)]; auto. }
    split; [auto|]. split. { destruct C7 as [(C7 & _)|(_ & C7 & _)]; [congruence|auto]. }
    eapply spent_left; [exact P1|exact C1].
Qed.

(** Decrypting a stream.  (The data buffer keeps the last pieces of plaintext, and
    after a failure the HMAC context may remain: see DESIGN.md.) *)
Theorem C70_dec_file M cfg leave junk lb hp e fi fo passwd P verbose force f sf o :
  in_bounds leave -> dec_ready M hp passwd -> input_ok fi -> N.of_nat (length (stream_data (no_errors fi))) < 2 ^ 64 ->
  ff_ok (ENCBLOCK + 32) f -> sf_ok sf ->
  scryptdec_file M cfg lb hp e fi fo passwd P verbose force = Ok o ->
  exists f' sf' l', mem_scryptdec_file M cfg leave junk lb hp e fi fo passwd P verbose force f sf [] = Ok (o, f', sf', l') /\
    callees_blank l' /\
    (oc_rc o = SCRYPT_OK -> blank_hmac (ff_hctx f')) /\
    (oc_rc o <> SCRYPT_EINVAL -> known (stream_data fi) (ff_hbuf f) (ff_hbuf f')) /\
    dec_setup_left (stream_data fi) sf sf' (oc_rc o).
Proof.
  intros HL [Hs HPW HH] HI HD2 HB HF E.
  destruct (mem_dec_file_ok M cfg leave HL junk lb hp e fi fo passwd P verbose force f sf [] o Hs HPW HH HI HD2 HB HF E)
    as (f' & sf' & l' & EM & A & C).
  exists f', sf', l'. split; [exact EM|]. split; [apply adds_nil, A|]. unfold known.
  assert (firstn 48 (stream_data fi) = firstn 48 (firstn 96 (stream_data fi))) as E48 by (rewrite firstn_firstn; reflexivity).
  destruct C as [(C1 & -> & ->)|[(C1 & -> & C3)|((_ & _ & C1) & C2)]].
  - split; [congruence|]. split; [auto|]. apply untouched_left, C1.
  - split; [congruence|]. split; [auto|]. eapply dec_spent_left; [exact C3|apply part_firstn|exact E48|auto].
  - split. { destruct C1 as [(C1 & _)|(_ & _ & C1 & _)]; [congruence|auto]. }
    split. { intros HNE. destruct C1 as [(_ & C1)|(_ & [C1|C1] & _ & _ & C3)]; [auto| |congruence].
             right. rewrite (proj1 C3 C1). apply part_skipn. }
    eapply dec_spent_left; [exact C2|apply part_firstn|exact E48|auto].
Qed.

(** A concrete successful run of each kind, with dirty memory. *)
Definition ex_bf : buf_frame := mk_bf (repeat 5 32) (repeat 6 96) (mk_hmac (mk_sha (repeat 1 8) 2 (repeat 3 64)) (mk_sha (repeat 1 8) 2 (repeat 3 64))).
Definition ex_sf : setup_frame := mk_sf (repeat 5 32) (repeat 6 32) (mk_sha (repeat 1 8) 2 (repeat 3 64)) (bf_hctx ex_bf).
Definition ex_ff (n : nat) : file_frame := mk_ff (repeat 9 n) (repeat 5 32) (repeat 6 96) (bf_hctx ex_bf).
Lemma ex_bf_ok : bf_ok ex_bf.
Proof. repeat split. Qed.
Lemma ex_sf_ok : sf_ok ex_sf.
Proof. repeat split. Qed.
Lemma ex_ff_ok n : ff_ok n (ex_ff n).
Proof. split; [apply repeat_length|]. repeat split. Qed.
Example C70_hyps : exists o, enc_ready ex_machine ex_lib ex_heap ex_call ex_passwd ex_P /\ bf_ok ex_bf /\ sf_ok ex_sf /\
  scryptenc_buf ex_machine ex_cfg ex_lib ex_heap ex_call ex_data (repeat 0 140) ex_passwd ex_P true true = Ok o /\ oc_rc o = SCRYPT_OK.
Proof.
  destruct ex_encrypts as (o & E & R). exists o. split; [apply ex_enc_ready; split; reflexivity|]. split; [exact ex_bf_ok|]. split; [exact ex_sf_ok|]. auto.
Qed.
Example C70_file_hyps : exists fi o, input_ok fi /\ ff_ok ENCBLOCK (ex_ff ENCBLOCK) /\
  scryptenc_file ex_machine ex_cfg ex_lib ex_heap ex_call fi (mk_out [] [] false) ex_passwd ex_P true true = Ok o /\ oc_rc o = SCRYPT_OK.
Proof.
  destruct C03_hyps as (ob & HD & HG & E & R).
  match type of HD with delivered _ ?s => set (fi := s) in * end. exists fi.
  destruct (C03_stream_equals_buffer ex_machine ex_cfg ex_lib ex_heap ex_call ex_data (repeat 0 140) fi (mk_out [] [] false) ex_passwd ex_P true true ob) with (4 := HD) as (of & E1 & A1 & _);
    try assumption; try reflexivity.
  { apply ex_enc_ready; split; reflexivity. } { split; [repeat constructor|reflexivity]. } { rewrite repeat_length. cbn. lia. }
  exists of. split; [repeat constructor|]. split; [apply ex_ff_ok|]. split; [exact E1|congruence].
Qed.

Definition Prop_scryptenc_mem_all := (C70_enc_buf, C70_dec_buf, C70_enc_file, C70_dec_file).
Print Assumptions Prop_scryptenc_mem_all.
