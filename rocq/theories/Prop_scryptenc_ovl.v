(** C71: the buffer functions when input and output overlap. *)
From Verif Require Import Base SpecBytes SpecSHA SpecScrypt SpecScryptAPI SpecAES SpecDRBG SpecFormat
  M_sha256 P_sha256 M_aes_hw M_aesctr P_aesctr P_scrypt_ref M_scrypt_sel M_entropy P_entropy M_machine M_double M_memlimit M_cpuperf
  M_humansize M_params Prop_params M_stdio P_stdio M_scryptenc SpecScryptenc P_scryptenc P_scryptenc2 P_scryptenc3 P_scryptenc4 P_scryptenc5 Prop_enc
  M_aesctr_mem P_aesctr_mem M_scryptenc_ovl P_scryptenc_ovl.
Local Opaque ENCBLOCK.

(* ------------------------------------------------------------------ *)
(** * Specification *)

(** The [n] bytes of memory [m] at [a]. *)
Definition block (m : bytes) (a n : nat) : bytes := firstn n (skipn a m).
(** [m] with [d] at [a]. *)
Definition placed (m : bytes) (a : nat) (d : bytes) : bytes := firstn a m ++ d ++ skipn (a + length d) m.
(** The block lies inside the memory. *)
Definition inside (m : bytes) (a n : nat) : Prop := (a + n <= length m)%nat.
(** Two blocks share no byte. *)
Definition apart (a n b k : nat) : Prop := (a + n <= b \/ b + k <= a)%nat.
(** Everything a call yields except its status and its output. *)
Definition same_side_effects {A B} (o : outcome A) (o' : outcome B) : Prop :=
  oc_lib o' = oc_lib o /\ oc_msgs o' = oc_msgs o /\ oc_P o' = oc_P o /\ oc_dk o' = oc_dk o /\ oc_heap o' = oc_heap o.

(* ------------------------------------------------------------------ *)
(** Encryption: correct whenever the 96 header bytes miss the input and the
    ciphertext goes exactly onto, behind or before it ... *)
Theorem C71_enc M cfg lb hp e m inp n outp passwd P verbose force o :
  enc_ready M lb hp e passwd P -> bytes_ok m -> N.of_nat n < 2 ^ 64 -> inside m inp n -> inside m outp (n + 128) ->
  (inp + n <= outp \/ outp + 96 <= inp)%nat ->
  scryptenc_buf M cfg lb hp e (block m inp n) (block m outp (n + 128)) passwd P verbose force = Ok o ->
  exists o', ovl_scryptenc_buf M cfg lb hp e m inp n outp passwd P verbose force = Ok o' /\
    same_side_effects o o' /\ oc_rc o' = oc_rc o /\ length (oc_val o) = (n + 128)%nat /\ oc_val o' = placed m outp (oc_val o).
Proof.
  intros [[Hs HPW HH] HXP HE HD] HM Hn HI HO HP E.
  destruct (ovl_enc_ok M cfg lb hp e m inp n outp passwd P verbose force o Hs HXP HPW HE HD HH HM Hn HI HO HP E) as (L & EO).
  eexists. split; [exact EO|]. unfold same_side_effects, with_val. cbn [oc_rc oc_lib oc_msgs oc_P oc_dk oc_heap oc_val]. auto 10.
Qed.
(** ... in particular in place, that is, with the data already where its
    ciphertext will be: the memory then holds the encrypted file. *)
Theorem C71_enc_in_place M cfg lb hp e m outp n passwd P verbose force o :
  enc_ready M lb hp e passwd P -> bytes_ok m -> N.of_nat n < 2 ^ 64 -> inside m outp (n + 128) ->
  scryptenc_buf M cfg lb hp e (block m (outp + 96) n) (block m outp (n + 128)) passwd P verbose force = Ok o -> oc_rc o = SCRYPT_OK ->
  exists o' h, ovl_scryptenc_buf M cfg lb hp e m (outp + 96) n outp passwd P verbose force = Ok o' /\
    oc_rc o' = SCRYPT_OK /\ same_side_effects o o' /\ fhead_ok h /\ computable M h /\
    oc_val o' = placed m outp (fmt_file scrypt_wrapping passwd h (block m (outp + 96) n)).
Proof.
  intros HR HM Hn HO EB ER. unfold inside in HO.
  destruct (C71_enc M cfg lb hp e m (outp + 96) n outp passwd P verbose force o HR HM Hn) as (o' & E1 & SE & R1 & L1 & V1); auto.
  { unfold inside. lia. }
  rewrite ER in R1.
  assert (length (block m (outp + 96) n) = n) as LN by (apply sub_length; lia).
  assert (length (block m outp (n + 128)) = (n + 128)%nat) as LB by (apply sub_length; lia).
  destruct (C02_format M cfg lb hp e (block m (outp + 96) n) (block m outp (n + 128)) passwd P verbose force HR) with (o := o)
    as (logN & r & p & salt & st' & _ & H1 & H2 & _ & _ & H3 & _ & H4); auto.
  { split; [apply bytes_ok_sub, HM|rewrite LN; exact Hn]. }
  { rewrite LN, LB. lia. }
  exists o', (mk_fh logN r p salt). split; [exact E1|]. split; [exact R1|]. split; [exact SE|]. split; [exact H1|]. split; [exact H2|]. rewrite V1. f_equal.
  rewrite H3, LN, skipn_all2, app_nil_r by lia. reflexivity.
Qed.

(** Decryption into memory apart from the input: as with two buffers. *)
Theorem C71_dec_apart M cfg lb hp e m inp n outp outlen passwd P verbose force o :
  dec_ready M hp passwd -> bytes_ok m -> N.of_nat n < 2 ^ 64 -> inside m inp n -> inside m outp (n - 128) ->
  apart inp n outp (n - 128) ->
  scryptdec_buf M cfg lb hp e (block m inp n) (block m outp (n - 128)) outlen passwd P verbose force = Ok o ->
  exists o', ovl_scryptdec_buf M cfg lb hp e m inp n outp outlen passwd P verbose force = Ok o' /\
    same_side_effects o o' /\ oc_rc o' = oc_rc o /\ oc_val o' = (placed m outp (fst (oc_val o)), snd (oc_val o)).
Proof.
  unfold inside, apart. intros [Hs HPW HH] HM Hn HI HO HP E.
  destruct (ovl_dec_ok M cfg lb hp e m inp n outp outlen passwd P verbose force o Hs HPW HH HM Hn HI HO ltac:(lia) E)
    as (o' & E' & V & L & S1 & S2 & S3 & S4 & S5 & R).
  exists o'. split; [exact E'|]. split; [unfold same_side_effects; auto|]. split; [|exact V].
  destruct R as [(R & _)|(H128 & R1 & R2 & R3 & R4)]; [exact R|].
  assert (sub (upd m outp (fst (oc_val o))) inp (n - 32) = sub (sub m inp n) 0 (n - 32)) as A1.
  { rewrite sub_upd_out by lia. rewrite sub_sub by lia. f_equal. lia. }
  assert (sub (upd m outp (fst (oc_val o))) (inp + (n - 32)) 32 = sub (sub m inp n) (n - 32) 32) as A2.
  { rewrite sub_upd_out by lia. rewrite sub_sub by lia. reflexivity. }
  rewrite A1, A2 in R4. destruct R1 as [X|X], R2 as [Y|Y]; rewrite X, Y in *; try reflexivity; exfalso.
  - assert (SCRYPT_EINVAL = SCRYPT_OK) by tauto. discriminate.
  - assert (SCRYPT_EINVAL = SCRYPT_OK) by tauto. discriminate.
Qed.

Section Valid.
  Context (M : machine) (cfg : clk_cfg) (lb : lib) (hp : kheap) (e : call_env) (m : bytes) (inp outp : nat) (outlen : N)
    (passwd : bytes) (P : xparams) (verbose : bool) (h : fhead) (data : bytes).
  Hypothesis HR : dec_ready M hp passwd.
  Hypothesis HM : bytes_ok m.
  Hypothesis HP : all_zero P = true.
  Hypothesis HN : no_failure e.
  Hypothesis Hh : fhead_ok h.
  Hypothesis Hc : computable M h.
  Hypothesis HD : N.of_nat (length data + 128) < 2 ^ 64.
  Hypothesis HI : inside m inp (length data + 128).
  Hypothesis HF : block m inp (length data + 128) = fmt_file scrypt_wrapping passwd h data.
  Hypothesis HO : inside m outp (length data).
  Notation K := (key_hmac scrypt_wrapping passwd h).

  (** Decryption of a valid file to any place that is not behind the start of
      its ciphertext: the plaintext is delivered, but the file is accepted only if
      what is then in its place still carries a matching tag. *)
  Theorem C71_dec_over : (outp <= inp + 96)%nat ->
    exists o', ovl_scryptdec_buf M cfg lb hp e m inp (length data + 128) outp outlen passwd P verbose true = Ok o' /\
      let m' := placed m outp data in
      oc_val o' = (m', N.of_nat (length data)) /\ (oc_rc o' = SCRYPT_OK \/ oc_rc o' = SCRYPT_EINVAL) /\
      (oc_rc o' = SCRYPT_OK <-> hmac K (block m' inp (length data + 96)) = block m' (inp + (length data + 96)) 32).
  Proof.
    intros HPL. unfold inside in HI, HO. set (n := (length data + 128)%nat) in *.
    assert (n - 128 = length data)%nat as N1 by lia. assert (n - 32 = length data + 96)%nat as N2 by lia.
    assert (length (sub m outp (n - 128)) = (n - 128)%nat) as LB by (apply sub_length; lia).
    destruct (fmt_file_checks passwd h data Hh) as (B1 & B2 & B3 & B4 & B5 & B6 & B7).
    change (block m inp n) with (sub m inp n) in HF.
    assert (length (sub m inp n) = n) as LF by (apply sub_length; lia).
    destruct (C05_accepts_iff M cfg lb hp e (sub m inp n) (sub m outp (n - 128)) outlen passwd P verbose HR) as (o & E & HIF & HV); auto.
    { split; [apply bytes_ok_sub, HM|rewrite LF; exact HD]. }
    { rewrite LF. lia. }
    destruct (HV h data HF Hh Hc) as (V & _). assert (oc_rc o = SCRYPT_OK) as EO by (apply HIF; exists h, data; auto).
    destruct HR as [Hs HPW HH].
    destruct (ovl_dec_ok M cfg lb hp e m inp n outp outlen passwd P verbose true o Hs HPW HH HM HD HI ltac:(lia) ltac:(lia) E)
      as (o' & E' & V' & L & S1 & S2 & S3 & S4 & S5 & R).
    exists o'. split; [exact E'|]. cbv zeta.
    assert (fst (oc_val o) = data) as F1.
    { rewrite V. cbn [fst]. rewrite skipn_all2, app_nil_r by lia. reflexivity. }
    rewrite V', F1 in *. rewrite V. cbn [snd].
    destruct R as [(_ & R & _)|(_ & _ & R2 & _ & R4)]; [contradiction|].
    split; [reflexivity|]. split; [exact R2|]. rewrite HF, B1, N2 in R4. exact R4.
  Qed.

  (** In place, that is, with the plaintext onto its ciphertext: accepted only in
      case header and plaintext happen to have the tag of header and ciphertext. *)
  Theorem C71_dec_in_place : outp = (inp + 96)%nat ->
    exists o', ovl_scryptdec_buf M cfg lb hp e m inp (length data + 128) outp outlen passwd P verbose true = Ok o' /\
      oc_val o' = (placed m outp data, N.of_nat (length data)) /\ (oc_rc o' = SCRYPT_OK \/ oc_rc o' = SCRYPT_EINVAL) /\
      (oc_rc o' = SCRYPT_OK <->
       hmac K (fmt_96 scrypt_wrapping passwd h ++ data) =
       hmac K (fmt_96 scrypt_wrapping passwd h ++ aes_ctr (key_enc scrypt_wrapping passwd h) 0 0 data)).
  Proof.
    intros EQ. destruct (C71_dec_over ltac:(lia)) as (o' & E & V & R & RI). cbv zeta in V, RI.
    exists o'. split; [exact E|]. split; [exact V|]. split; [exact R|]. rewrite RI. clear E V R RI o'.
    unfold inside in HI, HO. pose proof (fmt_96_length scrypt_wrapping passwd h) as L96.
    assert (length (fmt_96 scrypt_wrapping passwd h) = 96%nat) as L by (apply L96; apply Hh). clear L96.
    set (ct := aes_ctr (key_enc scrypt_wrapping passwd h) 0 0 data) in *.
    assert (length ct = length data) as LC by apply aes_ctr_length.
    set (tag := hmac K (fmt_96 scrypt_wrapping passwd h ++ ct)).
    assert (length tag = 32%nat) as LT by apply hmac_length.
    assert (fmt_file scrypt_wrapping passwd h data = fmt_96 scrypt_wrapping passwd h ++ ct ++ tag) as EF.
    { unfold fmt_file, fmt_body. rewrite <- app_assoc. reflexivity. }
    rewrite EF in HF. clear EF. clearbody tag ct. set (hd := fmt_96 scrypt_wrapping passwd h) in *. clearbody hd.
    change (block m inp (length data + 128)) with (sub m inp (length data + 128)) in HF.
    assert (placed m outp data = upd m inp (hd ++ data ++ tag)) as EP.
    { change (placed m outp data) with (upd m outp data). rewrite <- (upd_sub m inp (length data + 128)) at 1 by lia. rewrite HF, EQ.
      rewrite upd_nested by (rewrite ?app_length; lia). f_equal. unfold upd. rewrite <- L at 1. rewrite firstn_app_len by reflexivity. f_equal. f_equal.
      rewrite skipn_app, (skipn_all2 hd) by lia. cbn [app]. replace (96 + length data - length hd)%nat with (length ct) by lia.
      rewrite skipn_app, skipn_all, Nat.sub_diag. reflexivity. }
    rewrite EP. change (block (upd m inp (hd ++ data ++ tag)) inp (length data + 96)) with (sub (upd m inp (hd ++ data ++ tag)) inp (length data + 96)).
    change (block (upd m inp (hd ++ data ++ tag)) (inp + (length data + 96)) 32) with (sub (upd m inp (hd ++ data ++ tag)) (inp + (length data + 96)) 32).
    assert (sub (upd m inp (hd ++ data ++ tag)) inp (length data + 96) = hd ++ data) as ->.
    { rewrite <- (Nat.add_0_r inp) at 2. rewrite sub_upd_in by (rewrite ?app_length; lia).
      change (sub (hd ++ data ++ tag) 0 (length data + 96)) with (firstn (length data + 96) (hd ++ data ++ tag)).
      rewrite app_assoc. apply firstn_app_len. rewrite app_length. lia. }
    assert (sub (upd m inp (hd ++ data ++ tag)) (inp + (length data + 96)) 32 = tag) as ->.
    { rewrite sub_upd_in by (rewrite ?app_length; lia). rewrite app_assoc.
      replace ((hd ++ data) ++ tag) with ((hd ++ data) ++ tag ++ []) by (rewrite app_nil_r; reflexivity).
      apply sub_app_mid; [rewrite app_length; lia|lia]. }
    reflexivity.
  Qed.
End Valid.

(** The hypotheses can be met: the data at 96 of a 133-byte memory. *)
Definition ex_m : bytes := repeat 0 96 ++ ex_data ++ repeat 0 32.
Example C71_hyps :
  enc_ready ex_machine ex_lib ex_heap ex_call ex_passwd ex_P /\ bytes_ok ex_m /\ inside ex_m 0 (5 + 128) /\ block ex_m 96 5 = ex_data /\
  (exists o, scryptenc_buf ex_machine ex_cfg ex_lib ex_heap ex_call (block ex_m (0 + 96) 5) (block ex_m 0 (5 + 128)) ex_passwd ex_P true true = Ok o /\
     oc_rc o = SCRYPT_OK) /\
  dec_ready ex_machine ex_heap ex_passwd /\ all_zero ex_P0 = true /\ no_failure ex_call.
Proof.
  split; [apply ex_enc_ready; split; reflexivity|]. split; [repeat constructor|]. split; [unfold inside; cbn; lia|]. split; [reflexivity|].
  split; [|split; [exact ex_dec_ready|split; [reflexivity|exact ex_no_failure]]].
  destruct ex_salt as (salt & d & E & L & B).
  refine (C02_succeeds ex_machine ex_cfg ex_lib ex_heap ex_call (block ex_m (0 + 96) 5) (block ex_m 0 (5 + 128)) ex_passwd ex_P true true _ _ _ salt d eq_refl ex_no_failure eq_refl E _).
  - apply ex_enc_ready. split; reflexivity.
  - split; [repeat constructor|reflexivity].
  - cbn. lia.
  - unfold computable. cbn [fh_logN fh_r fh_p ex_P x_logN x_r x_p ex_machine m_szb].
    change (Z.to_N 14) with 14. constructor; try (vm_compute; congruence); exists 14; split; [lia|reflexivity].
Qed.
Example C71_dec_hyps :
  let f := fmt_file scrypt_wrapping ex_passwd ex_h ex_data in
  dec_ready ex_machine ex_heap ex_passwd /\ bytes_ok f /\ all_zero ex_P0 = true /\ no_failure ex_call /\ fhead_ok ex_h /\ computable ex_machine ex_h /\
  N.of_nat (length ex_data + 128) < 2 ^ 64 /\ inside f 0 (length ex_data + 128) /\ block f 0 (length ex_data + 128) = f /\
  inside f 96 (length ex_data) /\ (96 <= 0 + 96)%nat.
Proof.
  intros f. destruct C05_hyps as (H1 & H2 & H3 & [H4 _] & H5 & H6). fold f in H4.
  assert (length f = 133)%nat as L by (unfold f; rewrite fmt_file_length by apply H1; reflexivity). clearbody f.
  split; [exact H3|]. split; [exact H4|]. split; [exact H5|]. split; [exact H6|]. split; [exact H1|]. split; [exact H2|].
  split; [reflexivity|]. unfold inside. rewrite L. split; [cbn; lia|].
  split; [change (firstn 133 f = f); apply firstn_all2; rewrite L; auto with arith|]. split; [cbn; lia|lia].
Qed.
Definition Prop_scryptenc_ovl_all := (C71_enc, C71_enc_in_place, C71_dec_apart, C71_dec_over, C71_dec_in_place).
Print Assumptions Prop_scryptenc_ovl_all.
