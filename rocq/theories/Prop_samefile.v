(** C75: the same file as input and output. *)
From Verif Require Import Base SpecBytes SpecSHA SpecScrypt SpecScryptAPI SpecAES SpecDRBG SpecFormat SpecStream
  M_sha256 P_sha256 M_aes_hw M_aesctr P_aesctr P_scrypt_ref M_scrypt_sel M_entropy P_entropy M_machine M_double M_memlimit M_cpuperf
  M_humansize M_params Prop_params M_stdio P_stdio M_scryptenc SpecScryptenc P_scryptenc P_scryptenc2 P_scryptenc3 P_scryptenc4
  P_scryptenc5 P_scryptenc8 P_scryptenc9 Prop_enc Prop_dec Prop_io Prop_main Prop_crash P_scryptenc_ovl M_samefile P_samefile.
Local Opaque ENCBLOCK of_fread.

(** "scrypt enc f f" and "scrypt dec f f".  The C library reads the file in pieces
    of its own choosing ([chunk pos] bytes at offset [pos], at least one), and writes
    what it was given when it likes: after [n] bytes, at least the first [flush n]
    are in the file. *)

(* ------------------------------------------------------------------ *)
(** Encryption destroys the file: whatever was in it, the result is the same
    (provided the 96 bytes of the header fit into the output buffer; if they did
    not, the program would read back what it writes for ever). *)
Theorem C75_enc_lost chunk chunk' flush flush' M cfg lb hp e D D' passwd P verbose force :
  enc_ready M lb hp e passwd P -> flush 96%nat = 0%nat -> flush' 96%nat = 0%nat ->
  same_file_enc chunk flush M cfg lb hp e D passwd P verbose force = same_file_enc chunk' flush' M cfg lb hp e D' passwd P verbose force.
Proof.
  intros [[Hs HPW HH] HXP HE HD] H1 H2. rewrite !same_enc_eq by assumption. reflexivity.
Qed.
(** A reported success leaves the encryption of nothing. *)
Theorem C75_enc_empty chunk flush M cfg lb hp e D passwd P verbose force o :
  enc_ready M lb hp e passwd P -> flush 96%nat = 0%nat ->
  same_file_enc chunk flush M cfg lb hp e D passwd P verbose force = Ok o -> oc_rc o = SCRYPT_OK ->
  exists h, fhead_ok h /\ oc_val o = fmt_file scrypt_wrapping passwd h [].
Proof.
  intros HR HF E ER. pose proof HR as [[Hs HPW HH] HXP HE HD]. rewrite same_enc_eq in E by assumption.
  apply bind_inv in E. destruct E as (oe & EE & E). injection E as <-. cbn [with_val oc_rc oc_val] in *.
  destruct (C62_written M cfg lb hp e (mk_in [] false) (mk_out [] [] false) passwd P verbose force oe HR) as (w & W & [(_ & K)|(h & data & Hh & HP & _ & HIFF)]); auto.
  { split; [constructor|reflexivity]. }
  - contradiction.
  - exists h. split; [exact Hh|]. rewrite W. cbn [o_data app]. rewrite (proj1 HIFF ER). destruct HP as [c HC].
    change (stream_data (no_errors (mk_in [] false))) with (@nil N) in HC. destruct data; [reflexivity|discriminate].
Qed.
(** It does succeed. *)
Theorem C75_enc_succeeds chunk flush M cfg lb hp e D passwd P verbose force oe :
  enc_ready M lb hp e passwd P -> flush 96%nat = 0%nat ->
  scryptenc_file M cfg lb hp e (mk_in [] false) (mk_out [] [] false) passwd P verbose force = Ok oe ->
  exists o, same_file_enc chunk flush M cfg lb hp e D passwd P verbose force = Ok o /\ oc_rc o = oc_rc oe /\
    oc_val o = o_data (snd (oc_val oe)).
Proof.
  intros [[Hs HPW HH] HXP HE HD] HF E. rewrite same_enc_eq by assumption. rewrite E, bind_Ok. eexists. split; [reflexivity|]. auto.
Qed.

(** If the output stream is not buffered, so that the header is in the file before
    the input is read, encryption never ends: from then on every fread returns
    data, namely what was written before.  (Stated for the loop of scryptenc_file:
    no number of rounds suffices, up to the 2^64 bytes the cipher can produce.) *)
Theorem C75_enc_endless chunk M key K : forall rounds AES hctx m pos l s,
  stream_at (m_aes M) key 0 pos AES -> hmac_inv hctx K m -> bytes_ok key -> (length key = 16 \/ length key = 32)%nat ->
  pos + N.of_nat (rounds * ENCBLOCK) < 2 ^ 64 ->
  bytes_ok (of_disk s) -> reading (of_disk s) l s -> (l < length (of_disk s))%nat ->
  sf_enc_loop chunk (fun n => n) M rounds AES hctx s = UB.
Proof.
  induction rounds as [|f IH]; intros AES hctx m pos l s HS HH HKO HKL HP HO HR HL; [reflexivity|].
  set (D := of_disk s) in *. cbn [sf_enc_loop]. pose proof ENCBLOCK_pos as HEB.
  destruct (of_fread_ok chunk D ENCBLOCK l s HR) as (s1 & E1 & R1 & _). rewrite E1, bind_Ok. cbv beta iota.
  set (d := firstn ENCBLOCK (skipn l D)) in *.
  assert (length d = Nat.min ENCBLOCK (length D - l)) as LD by (unfold d; rewrite firstn_length, skipn_length; reflexivity).
  assert (bytes_ok d) as OD by (apply bytes_ok_firstn, bytes_ok_skipn, HO).
  destruct (Nat.eqb_spec (length d) 0) as [E0|E0]; [lia|].
  destruct (stream_ok (m_aes M) (m_hi M) key 0 pos AES d HS) as (AES1 & E2 & HS1). { cbn [Nat.mul] in HP. lia. }
  rewrite E2, bind_Ok. cbv beta iota. set (ct := aes_ctr key 0 pos d) in *.
  assert (length ct = length d) as LC by apply aes_ctr_length.
  assert (bytes_ok ct) as OC by (apply aes_ctr_ok; assumption).
  destruct (HMAC_Update_correct (shw M) (jk M) hctx K m ct HH OC) as (h1 & E3 & HH1). rewrite E3, bind_Ok.
  pose proof R1 as (RD & RP & R3 & R4 & R5).
  assert (of_fwrite (fun n => n) ct s1 = mk_one (D ++ ct) (of_pos s1) (of_ahead s1) []) as ->.
  { unfold of_fwrite. rewrite RD, RP. cbn [app]. rewrite app_length. rewrite firstn_all2, skipn_all2 by (rewrite app_length; lia). reflexivity. }
  apply (IH AES1 h1 (m ++ ct) (pos + N.of_nat (length d)) (l + length d)%nat).
  - exact HS1.
  - exact HH1.
  - exact HKO.
  - exact HKL.
  - cbn [Nat.mul] in HP. lia.
  - cbn [of_disk]. apply bytes_ok_app. split; assumption.
  - unfold reading. cbn [of_disk of_pend of_ahead of_pos]. split; [reflexivity|]. split; [reflexivity|]. split; [exact R3|].
    split; [rewrite app_length; lia|]. rewrite R5 at 1. unfold sub. rewrite skipn_app, firstn_app, skipn_length.
    replace (length (of_ahead s1) - (length D - (l + length d)))%nat with 0%nat by lia. rewrite firstn_O, app_nil_r. reflexivity.
  - cbn [of_disk]. rewrite app_length. lia.
Qed.

(** The loop starts in such a state: the header has just been written. *)
Example C75_endless_hyps D hd : length hd = 96%nat ->
  let s := of_fwrite (fun n => n) hd (open_wb (open_rb D)) in
  of_disk s = hd /\ reading (of_disk s) 0 s /\ (0 < length (of_disk s))%nat.
Proof.
  intros L s. assert (s = mk_one hd 0 [] []) as ->.
  { unfold s, of_fwrite, open_wb, open_rb. cbn [of_disk of_pos of_ahead of_pend app length].
    rewrite firstn_all2, skipn_all2 by lia. reflexivity. }
  unfold reading. cbn [of_disk of_pos of_ahead of_pend length]. repeat split; lia.
Qed.

(* ------------------------------------------------------------------ *)
(** Decryption onto itself: if the header is refused (not a scrypt file, wrong
    passphrase, limits), the file keeps its contents ... *)
Theorem C75_dec_refused chunk flush M cfg lb hp e D passwd P verbose force p :
  dec_ready M hp passwd -> data_ok D ->
  scryptdec_file_prep M cfg lb hp e (fi_of D) passwd P verbose force None = Ok p -> oc_rc p <> SCRYPT_OK ->
  exists o, same_file_dec chunk flush M cfg lb hp e D passwd P verbose force = Ok o /\ oc_rc o = oc_rc p /\ oc_val o = D.
Proof.
  intros [Hs HPW HH] [HO HL] EP ER. destruct (same_dec_eq chunk flush M cfg D HO HL) as (k & _ & _ & _ & (rc & hd & g1 & g2 & L1 & L2) & EQ).
  rewrite EQ by assumption. rewrite EP, bind_Ok.
  pose proof (prep_only_header M cfg lb hp e _ _ passwd P verbose force None rc hd g1 g2 L1 L2
    (fun rc => Ok (mk_oc rc lb [] P [] hp []))) as K.
  rewrite EP, bind_Ok in K.
  unfold scryptdec_file. destruct (scryptdec_file_prep M cfg lb hp e (fi_of (firstn k D)) passwd P verbose force None) as [p2| |] eqn:EP2; try discriminate.
  rewrite bind_Ok in K. assert (oc_rc p2 = oc_rc p) as ERR by congruence.
  assert (assert_ (all_zero P) = Ok tt) as ->.
  { unfold scryptdec_file_prep in EP. apply bind_inv in EP. destruct EP as ([] & EA & _). exact EA. }
  rewrite !bind_Ok. rewrite ERR. destruct (oc_val p2) as [C g].
  assert (is_ok (oc_rc p) = false) as -> by (destruct (is_ok (oc_rc p)) eqn:EI; [apply is_ok_spec in EI; contradiction|reflexivity]).
  cbn [negb]. rewrite bind_Ok. eexists. split; [reflexivity|]. unfold with_val. cbn [oc_rc oc_val]. rewrite ?ERR. auto.
Qed.
Lemma refused_or_not chunk flush M cfg lb hp e D passwd P verbose force o :
  dec_ready M hp passwd -> data_ok D -> same_file_dec chunk flush M cfg lb hp e D passwd P verbose force = Ok o ->
  exists k p oe, (k <= length D)%nat /\ (Nat.min (Nat.max 1 (chunk 0%nat)) (length D) <= k)%nat /\
    (forall B, (1 <= B)%nat -> (forall i, chunk i <= B)%nat -> (k < 96 + B)%nat) /\
    scryptdec_file_prep M cfg lb hp e (fi_of D) passwd P verbose force None = Ok p /\
    scryptdec_file M cfg lb hp e (fi_of (firstn k D)) (mk_out [] [] false) passwd P verbose force = Ok oe /\
    o = with_val oe (if is_ok (oc_rc p) then o_data (snd (oc_val oe)) else D) /\
    (oc_rc p <> SCRYPT_OK -> oc_rc o = oc_rc p).
Proof.
  intros HR HD E. pose proof HR as [Hs HPW HH]. pose proof HD as [HO HL].
  destruct (same_dec_eq chunk flush M cfg D HO HL) as (k & K1 & K2 & K3 & _ & EQ).
  rewrite EQ in E by assumption. apply bind_inv in E. destruct E as (p & EP & E). apply bind_inv in E. destruct E as (oe & EE & E).
  injection E as <-. exists k, p, oe. repeat (split; [assumption || reflexivity|]).
  intros ER. destruct (C75_dec_refused chunk flush M cfg lb hp e D passwd P verbose force p HR HD EP ER) as (o & E & R & V).
  rewrite EQ, EP, bind_Ok, EE, bind_Ok in E by assumption. injection E as E. rewrite <- R, <- E. reflexivity.
Qed.
Lemma fi_of_instream D k : data_ok D -> instream_ok (fi_of (firstn k D)).
Proof.
  intros [HO HL]. split; [apply fi_of_ok, bytes_ok_firstn, HO|]. rewrite fi_of_no_errors, fi_of_data.
  rewrite firstn_length. lia.
Qed.
(** ... in particular if it is no scrypt file for this passphrase. *)
Theorem C75_dec_unverified chunk flush M cfg lb hp e D passwd P verbose force o :
  dec_ready M hp passwd -> data_ok D -> ~ verified M passwd D ->
  same_file_dec chunk flush M cfg lb hp e D passwd P verbose force = Ok o -> oc_rc o <> SCRYPT_OK /\ oc_val o = D.
Proof.
  intros HR HD HV E. destruct (refused_or_not _ _ _ _ _ _ _ _ _ _ _ _ _ HR HD E) as (k & p & oe & _ & _ & _ & EP & EE & -> & HRR).
  assert (oc_rc p <> SCRYPT_OK) as ER.
  { intros ER. apply HV. pose proof (fi_of_instream D (length D) HD) as HI. rewrite firstn_all in HI.
    pose proof (prep_verified M cfg lb hp e _ passwd P verbose force None p HR HI EP ER) as K. rewrite fi_of_data in K. exact K. }
  split; [rewrite (HRR ER); exact ER|]. cbn [with_val oc_val].
  destruct (is_ok (oc_rc p)) eqn:EI; [apply is_ok_spec in EI; contradiction|reflexivity].
Qed.
(** A file that the first read takes in completely is decrypted: on success it
    holds the data ... *)
Theorem C75_dec_small chunk flush M cfg lb hp e h data passwd P verbose force o :
  dec_ready M hp passwd -> data_ok (fmt_file scrypt_wrapping passwd h data) -> fhead_ok h -> (length data + 128 <= chunk 0%nat)%nat ->
  same_file_dec chunk flush M cfg lb hp e (fmt_file scrypt_wrapping passwd h data) passwd P verbose force = Ok o ->
  oc_rc o = SCRYPT_OK -> oc_val o = data.
Proof.
  set (D := fmt_file scrypt_wrapping passwd h data). intros HR HD Hh HC E ER.
  assert (length D = (length data + 128)%nat) as LD by (apply fmt_file_length; apply Hh).
  destruct (refused_or_not _ _ _ _ _ _ _ _ _ _ _ _ _ HR HD E) as (k & p & oe & K1 & K2 & _ & EP & EE & -> & HRR).
  assert (k = length D) as -> by lia. rewrite firstn_all in EE. cbn [with_val oc_rc oc_val] in *.
  destruct (is_ok (oc_rc p)) eqn:EI; [|apply is_ok_false in EI; rewrite (HRR EI) in ER; contradiction].
  pose proof (fi_of_instream D (length D) HD) as HI. rewrite firstn_all in HI.
  pose proof (C62_truncated_stream M cfg lb hp e (fi_of D) (mk_out [] [] false) passwd P verbose force oe h data HR HI Hh) as K. cbv zeta in K.
  rewrite fi_of_no_errors, fi_of_data in K. destruct K as (w & W & _ & _ & HOK); [exists []; rewrite app_nil_r; reflexivity|exact EE|].
  rewrite W. cbn [o_data app]. destruct (HOK ER) as (_ & [(_ & K)|(K & _)]); [exact K|]. lia.
Qed.
(** ... and with nothing failing it succeeds. *)
Theorem C75_dec_small_succeeds chunk flush M cfg lb hp e h data passwd P verbose :
  dec_ready M hp passwd -> data_ok (fmt_file scrypt_wrapping passwd h data) -> fhead_ok h -> computable M h -> (length data + 128 <= chunk 0%nat)%nat ->
  all_zero P = true -> no_failure e ->
  exists o, same_file_dec chunk flush M cfg lb hp e (fmt_file scrypt_wrapping passwd h data) passwd P verbose true = Ok o /\
    oc_rc o = SCRYPT_OK /\ oc_val o = data.
Proof.
  set (D := fmt_file scrypt_wrapping passwd h data). intros HR HD Hh Hc HC HP HN.
  assert (length D = (length data + 128)%nat) as LD by (apply fmt_file_length; apply Hh).
  assert (delivered D (fi_of D)) as HDL.
  { unfold fi_of. destruct D as [|x D']; [cbn in LD; lia|]. split; [reflexivity|]. split; [|cbn; rewrite app_nil_r; reflexivity]. constructor; [split; [discriminate|reflexivity]|constructor]. }
  destruct (C05_stream_accepts_iff M cfg lb hp e D (fi_of D) (mk_out [] [] false) passwd P verbose HR HD HDL (Forall_nil _) eq_refl HP HN) as (oe & EE & HIFF & HV).
  assert (oc_rc oe = SCRYPT_OK) as ER by (apply HIFF; exists h, data; auto).
  pose proof HR as [Hs HPW HH]. destruct (same_dec_eq chunk flush M cfg D (proj1 HD) (proj2 HD)) as (k & K1 & K2 & _ & _ & EQ).
  assert (k = length D) as -> by lia. rewrite firstn_all in EQ. specialize (EQ lb hp e passwd P verbose true Hs HPW HH).
  pose proof EE as EX. unfold scryptdec_file in EX. apply bind_inv in EX. destruct EX as (u & _ & EX). apply bind_inv in EX. destruct EX as (p & EP & _).
  rewrite EP, bind_Ok, EE, bind_Ok in EQ. eexists. split; [exact EQ|]. split; [exact ER|].
  eapply (C75_dec_small chunk flush M cfg lb hp e h data passwd P verbose true _ HR HD Hh HC EQ). exact ER.
Qed.
(** A larger file is lost: what the first reads do not take in is gone when the
    output is opened.  Success would take a forgery; what remains is a beginning
    of the data, or the file is untouched. *)
Theorem C75_dec_large chunk flush M cfg lb hp e h data passwd P verbose force o B :
  dec_ready M hp passwd -> data_ok (fmt_file scrypt_wrapping passwd h data) -> fhead_ok h ->
  (1 <= B)%nat -> (forall i, chunk i <= B)%nat -> (96 + B <= length data + 128)%nat ->
  same_file_dec chunk flush M cfg lb hp e (fmt_file scrypt_wrapping passwd h data) passwd P verbose force = Ok o ->
  exists k, (k < 96 + B)%nat /\
    (oc_rc o = SCRYPT_OK -> lucky_tag passwd h data (firstn k (fmt_file scrypt_wrapping passwd h data))) /\
    (oc_val o = fmt_file scrypt_wrapping passwd h data \/
     prefix (oc_val o) data /\ (length (oc_val o) <= k - 128)%nat).
Proof.
  set (D := fmt_file scrypt_wrapping passwd h data). intros HR HD Hh HB HC HL E.
  assert (length D = (length data + 128)%nat) as LD by (apply fmt_file_length; apply Hh).
  destruct (refused_or_not _ _ _ _ _ _ _ _ _ _ _ _ _ HR HD E) as (k & p & oe & K1 & K2 & K3 & EP & EE & -> & HRR).
  specialize (K3 B HB HC). exists k. split; [exact K3|]. cbn [with_val oc_rc oc_val] in *.
  pose proof (fi_of_instream D k HD) as HI.
  pose proof (C62_truncated_stream M cfg lb hp e (fi_of (firstn k D)) (mk_out [] [] false) passwd P verbose force oe h data HR HI Hh) as K. cbv zeta in K.
  rewrite fi_of_no_errors, fi_of_data in K. destruct K as (w & W & HW & HL2 & HOK); [exists (skipn k D); symmetry; apply firstn_skipn|exact EE|].
  assert (length (firstn k D) = k) as LF by (rewrite firstn_length; lia). rewrite LF in *.
  split.
  - intros ER. destruct (HOK ER) as (_ & [(K & _)|K]); [|exact K]. apply (f_equal (@length N)) in K. fold D in K. lia.
  - destruct (is_ok (oc_rc p)); [right|left; reflexivity]. rewrite W. cbn [o_data app]. split; [exact HW|]. destruct HL2 as [->|HL2]; cbn [length]; lia.
Qed.

(** With nothing failing it is lost for certain: less than the first reads took in
    remains. *)
Theorem C75_dec_large_lost chunk flush M cfg lb hp e h data passwd P verbose B :
  dec_ready M hp passwd -> data_ok (fmt_file scrypt_wrapping passwd h data) -> fhead_ok h -> computable M h ->
  (1 <= B)%nat -> (forall i, chunk i <= B)%nat -> (96 + B <= length data + 128)%nat -> all_zero P = true -> no_failure e ->
  exists o, same_file_dec chunk flush M cfg lb hp e (fmt_file scrypt_wrapping passwd h data) passwd P verbose true = Ok o /\
    prefix (oc_val o) data /\ (length (oc_val o) < B)%nat.
Proof.
  set (D := fmt_file scrypt_wrapping passwd h data). intros HR HD Hh Hc HB HC HL HP HN.
  assert (length D = (length data + 128)%nat) as LD by (apply fmt_file_length; apply Hh).
  assert (forall d, delivered d (fi_of d)) as HDL.
  { intros d. unfold fi_of. destruct d as [|x d]; [split; [reflexivity|]; split; [constructor|reflexivity]|]. split; [reflexivity|].
    split; [|cbn; rewrite app_nil_r; reflexivity]. constructor; [split; [discriminate|reflexivity]|constructor]. }
  destruct (C05_stream_accepts_iff M cfg lb hp e D (fi_of D) (mk_out [] [] false) passwd P verbose HR HD (HDL D) (Forall_nil _) eq_refl HP HN) as (oe & EE & HIFF & _).
  assert (oc_rc oe = SCRYPT_OK) as ER by (apply HIFF; exists h, data; auto).
  pose proof HR as [Hs HPW HH]. destruct (same_dec_eq chunk flush M cfg D (proj1 HD) (proj2 HD)) as (k & K1 & _ & K3 & _ & EQ).
  specialize (K3 B HB HC). specialize (EQ lb hp e passwd P verbose true Hs HPW HH).
  assert (data_ok (firstn k D)) as HDK.
  { destruct HD as [D1 D2]. split; [apply bytes_ok_firstn, D1|]. rewrite firstn_length. lia. }
  destruct (C05_stream_accepts_iff M cfg lb hp e (firstn k D) (fi_of (firstn k D)) (mk_out [] [] false) passwd P verbose HR HDK (HDL _) (Forall_nil _) eq_refl HP HN)
    as (ok & EK & _).
  unfold scryptdec_file in EE. apply bind_inv in EE. destruct EE as (u & _ & EE). apply bind_inv in EE. destruct EE as (p & EP & EE).
  assert (is_ok (oc_rc p) = true) as EI.
  { destruct (oc_val p) as [C g]. destruct (is_ok (oc_rc p)) eqn:EI; [reflexivity|]. cbn [negb] in EE. injection EE as EE. rewrite <- EE in ER. cbn [oc_rc] in ER.
    apply is_ok_false in EI. contradiction. }
  rewrite EP, bind_Ok, EK, bind_Ok, EI in EQ. eexists. split; [exact EQ|]. cbn [with_val oc_val].
  pose proof (fi_of_instream D k HD) as HI.
  pose proof (C62_truncated_stream M cfg lb hp e (fi_of (firstn k D)) (mk_out [] [] false) passwd P verbose true ok h data HR HI Hh) as K. cbv zeta in K.
  rewrite fi_of_no_errors, fi_of_data in K. destruct K as (w & W & HW & HL2 & _); [exists (skipn k D); symmetry; apply firstn_skipn|exact EK|].
  assert (length (firstn k D) = k) as LF by (rewrite firstn_length; lia). rewrite LF in *.
  rewrite W. cbn [o_data app]. split; [exact HW|]. destruct HL2 as [->|HL2]; cbn [length]; lia.
Qed.

(** The hypotheses are met: a stream that reads 4096 bytes at a time and writes
    4096 at a time. *)
Definition ex_flush (n : nat) : nat := (Nat.div n 4096 * 4096)%nat.
Example C75_hyps :
  enc_ready ex_machine ex_lib ex_heap ex_call ex_passwd ex_P /\ ex_flush 96 = 0%nat /\
  dec_ready ex_machine ex_heap ex_passwd /\ data_ok (fmt_file scrypt_wrapping ex_passwd ex_h ex_data) /\ fhead_ok ex_h /\ computable ex_machine ex_h /\
  (length ex_data + 128 <= 4096)%nat /\ all_zero ex_P0 = true /\ no_failure ex_call /\
  ~ verified ex_machine ex_passwd ex_data /\
  data_ok (fmt_file scrypt_wrapping ex_passwd ex_h (repeat 0%N 5000)) /\ (96 + 4096 <= length (repeat 0%N 5000) + 128)%nat.
Proof.
  split; [apply ex_enc_ready; split; reflexivity|]. split; [reflexivity|].
  pose proof ex_h_ok as Hh. split; [exact ex_dec_ready|].
  split. { split; [apply fmt_file_ok; [exact Hh|repeat constructor]|]. rewrite fmt_file_length by apply Hh. reflexivity. }
  split; [exact Hh|]. split; [exact ex_h_computable|]. split; [cbn; lia|]. split; [reflexivity|]. split; [exact ex_no_failure|].
  split; [intros (K & _); cbn in K; lia|]. split; [|rewrite repeat_length; lia].
  assert (bytes_ok (repeat 0%N 5000)) as HB by (apply Forall_forall; intros x Hx; apply repeat_spec in Hx; subst x; reflexivity).
  split; [apply fmt_file_ok; assumption|]. rewrite fmt_file_length by apply Hh. rewrite repeat_length. reflexivity.
Qed.

Definition Prop_samefile_all := (C75_enc_lost, C75_enc_empty, C75_enc_succeeds, C75_enc_endless, C75_dec_refused, C75_dec_unverified, C75_dec_small, C75_dec_small_succeeds, C75_dec_large, C75_dec_large_lost).
Print Assumptions Prop_samefile_all.
