(** C63: the salts of all files made during the life of a process. *)
From Verif Require Import Base SpecBytes SpecSHA SpecScrypt SpecScryptAPI SpecAES SpecDRBG SpecFormat SpecStream
  M_endian P_endian M_sha256_tr M_simd M_sha256_hw M_sha256 P_sha256 M_smix M_aes_hw M_aesctr P_aes P_aesctr P_scrypt P_scrypt_ref
  M_scrypt_sel P_scrypt_sel Prop_scrypt M_verify P_verify M_entropy P_entropy M_machine M_double M_memlimit M_cpuperf
  M_humansize P_humansize M_params Prop_params M_stdio P_stdio M_scryptenc SpecScryptenc P_scryptenc P_scryptenc2 P_scryptenc3 P_scryptenc4
  P_scryptenc5 P_scryptenc6 P_scryptenc7 P_scryptenc8 P_scryptenc9 P_scryptenc10 P_scryptenc11 Prop_enc Prop_dec Prop_io Prop_entropy Prop_explicit.
Local Opaque ENCBLOCK.

(** ** Histories: any sequence of library calls in one process *)
(** The state that survives a call is [lib] (the random number generator and the
    selected code path) and the heap.  scryptdec_file_copy and
    scryptdec_file_cookie_free use neither part of [lib], so a prepared decryption
    is represented by its first step. *)
Inductive lib_call :=
| C_enc_buf (e : call_env) (data outbuf passwd : bytes) (P : xparams) (verbose force : bool)
| C_enc_file (e : call_env) (fi : instream) (fo : outstream) (passwd : bytes) (P : xparams) (verbose force : bool)
| C_dec_buf (e : call_env) (f outbuf : bytes) (outlen : N) (passwd : bytes) (P : xparams) (verbose force : bool)
| C_dec_file (e : call_env) (fi : instream) (fo : outstream) (passwd : bytes) (P : xparams) (verbose force : bool)
| C_dec_prep (e : call_env) (fi : instream) (passwd : bytes) (P : xparams) (verbose force : bool).
(** Status, and the bytes that arrived at the output: the bytes of the file for a
    successful encryption to a buffer, what was appended to an output stream.  For
    the other calls not of interest here. *)
Definition call_result : Type := rcode * bytes.
Definition lib_step (M : machine) (cfg : clk_cfg) (lb : lib) (hp : kheap) (c : lib_call) : res (call_result * lib * kheap) :=
  match c with
  | C_enc_buf e data outbuf passwd P v f =>
      o <- scryptenc_buf M cfg lb hp e data outbuf passwd P v f ;;
      Ok (oc_rc o, if is_ok (oc_rc o) then firstn (length data + 128) (oc_val o) else [], oc_lib o, oc_heap o)
  | C_enc_file e fi fo passwd P v f =>
      o <- scryptenc_file M cfg lb hp e fi fo passwd P v f ;;
      Ok (oc_rc o, skipn (length (o_data fo)) (o_data (snd (oc_val o))), oc_lib o, oc_heap o)
  | C_dec_buf e f outbuf outlen passwd P v fc =>
      o <- scryptdec_buf M cfg lb hp e f outbuf outlen passwd P v fc ;; Ok (oc_rc o, [], oc_lib o, oc_heap o)
  | C_dec_file e fi fo passwd P v f =>
      o <- scryptdec_file M cfg lb hp e fi fo passwd P v f ;; Ok (oc_rc o, [], oc_lib o, oc_heap o)
  | C_dec_prep e fi passwd P v f =>
      o <- scryptdec_file_prep M cfg lb hp e fi passwd P v f None ;; Ok (oc_rc o, [], oc_lib o, oc_heap o)
  end.
Fixpoint lib_history (M : machine) (cfg : clk_cfg) (lb : lib) (hp : kheap) (cs : list lib_call) : res (list call_result * lib * kheap) :=
  match cs with
  | [] => Ok ([], lb, hp)
  | c :: t =>
      ' (r, lb, hp) <- lib_step M cfg lb hp c ;;
      ' (rs, lb, hp) <- lib_history M cfg lb hp t ;;
      Ok (r :: rs, lb, hp)
  end.
(** Arguments as the API requires them. *)
Definition call_ok (c : lib_call) : Prop :=
  match c with
  | C_enc_buf e data outbuf passwd P _ _ => bytes_ok passwd /\ xp_ok P /\ env_bytes (v_ent e) /\ data_ok data /\ (length data + 128 <= length outbuf)%nat
  | C_enc_file e fi fo passwd P _ _ => bytes_ok passwd /\ xp_ok P /\ env_bytes (v_ent e) /\ instream_ok fi
  | C_dec_buf e f outbuf outlen passwd P _ _ => bytes_ok passwd /\ data_ok f /\ (length f - 128 <= length outbuf)%nat
  | C_dec_file e fi fo passwd P _ _ => bytes_ok passwd /\ instream_ok fi
  | C_dec_prep e fi passwd P _ _ => bytes_ok passwd /\ instream_ok fi
  end.
(** What one call does to the generator: the operations it performs and the bytes
    they deliver.  Decryption: none.  Encryption: seeds come from the operating
    system during this call; and if as much as the salt field (bytes 16 to 47) got
    into the output, that is exactly what the generator delivered. *)
Definition salt_log (c : lib_call) (r : call_result) (log : list drbg_op * bytes) : Prop :=
  match c with
  | C_enc_buf e _ _ _ _ _ _ | C_enc_file e _ _ _ _ _ _ =>
      seeds_from (v_ent e) 0 (fst log) /\
      ((48 <= length (snd r))%nat -> length (snd log) = 32%nat /\ sub (snd r) 16 32 = snd log)
  | _ => log = ([], [])
  end.
Inductive salt_logs : list lib_call -> list call_result -> list (list drbg_op * bytes) -> Prop :=
| SL_nil : salt_logs [] [] []
| SL_cons c cs r rs l ls : salt_log c r l -> salt_logs cs rs ls -> salt_logs (c :: cs) (r :: rs) (l :: ls).

(** ** Proofs *)
(** One encryption and the generator. *)
Definition enc_draw (M : machine) (e : call_env) (lb lb' : lib) (rc : rcode) : Prop :=
  lb_drbg lb' = lb_drbg lb /\ rc <> SCRYPT_OK \/
  exists r, crypto_entropy_read (m_sha M) (m_junk M) (v_ent e) (lb_drbg lb) 32 = Ok (r, lb_drbg lb').
Lemma setup_draw M cfg lb e P header dk passwd verbose force lb' ms P' header' dk' rc :
  size_bits (m_szb M) -> xp_ok P -> bytes_ok passwd -> env_bytes (v_ent e) -> drbg_inv (lb_drbg lb) ->
  length dk = 64%nat -> bytes_ok dk ->
  scryptenc_setup M cfg lb e P header dk passwd verbose force = Ok (lb', ms, P', header', dk', rc) -> enc_draw M e lb lb' rc.
Proof.
  intros Hs HXP HPW HE HD HLD HOD E. unfold scryptenc_setup in E.
  apply bind_inv in E. destruct E as ([[[lb1 ms1] P1] rc1] & E1 & E).
  apply setup_params_inv in E1; [|exact HXP]. destruct E1 as (D1 & (HR1 & HP1) & HX1 & HK1 & HC1).
  destruct (is_ok rc1) eqn:EO; cbn [negb] in E.
  2:{ apply is_ok_false in EO. left. assert (rc1 = rc /\ lb1 = lb') as (-> & ->) by (split; congruence). auto. }
  apply bind_inv in E. destruct E as (u & EA & E).
  assert (0 < x_logN P1 < 64)%Z as HLN.
  { unfold assert_ in EA. destruct ((0 <? x_logN P1)%Z && (x_logN P1 <? 64)%Z) eqn:EB; [|discriminate]. lia. }
  clear EA u. cbv zeta in E. right.
  apply bind_inv in E. destruct E as ([so d] & ES & E). rewrite D1 in ES. change (crypto_entropy_read (m_sha M) (m_junk M) (v_ent e) (lb_drbg lb) 32 = Ok (so, d)) in ES. exists so. rewrite ES.
  destruct (crypto_entropy_read_ok (m_sha M) (m_junk M) (v_ent e) (lb_drbg lb) 32 HE HD) as (r & st' & ops & out & ER & HDI & _ & _ & _ & HRR).
  destruct so as [salt|]; [|assert (lb' = mk_lib (lb_smix lb1) d) as -> by congruence; reflexivity].
  assert (length salt = 32%nat /\ bytes_ok salt) as [HSL HSO].
  { rewrite ES in ER. destruct HRR as [(E0 & A & B)|(E0 & _)]; [|congruence]. assert (salt = out) as -> by congruence. auto. }
  assert (Z.to_N (x_logN P1) <= 63) as HL63 by lia.
  rewrite one_shl in E by exact HL63.
  assert (2 ^ Z.to_N (x_logN P1) < 2 ^ 64) as HN64 by (apply N.pow_lt_mono_r; lia).
  apply bind_inv in E. destruct E as ([[ok dk1] lb2] & ED & E).
  apply derive_inv in ED; auto. destruct ED as (D2 & _). cbn [lb_drbg] in D2.
  assert (lb2 = lb') as ->; [|rewrite D2; reflexivity].
  destruct ok; cbn [negb] in E; [|congruence]. apply bind_inv in E. destruct E as (hd & _ & E). congruence.
Qed.
Lemma enc_buf_draw M cfg lb hp e data outbuf passwd P verbose force o :
  enc_ready M lb hp e passwd P -> data_ok data -> (length data + 128 <= length outbuf)%nat ->
  scryptenc_buf M cfg lb hp e data outbuf passwd P verbose force = Ok o -> enc_draw M e lb (oc_lib o) (oc_rc o).
Proof.
  intros [[Hs HPW HH] HX HE HD] [D1 D2] HO E. rewrite scryptenc_buf_eq in E.
  apply bind_inv in E. destruct E as (u & _ & E). apply bind_inv in E. destruct E as ([[[[[lb1 ms] P1] hd] dk] rc] & ES & E).
  pose proof ES as ES0. apply setup_draw in ES0; auto using scratch_bytes_ok, scratch_bytes_length.
  apply scryptenc_setup_inv in ES; auto using scratch_bytes_ok, scratch_bytes_length. destruct ES as (_ & A2 & _ & _ & _ & A6).
  destruct (is_ok rc) eqn:EO.
  2:{ apply is_ok_false in EO. rewrite enc_buf_rest_fail in E by assumption. injection E as <-. exact ES0. }
  apply is_ok_spec in EO. subst rc. destruct (A6 eq_refl) as (h & d & B1 & B2 & B3 & B4 & B5 & B6). subst P1 dk hd.
  destruct (enc_buf_rest_ok M hp e data outbuf lb1 ms (P_of (x_lim P) h) passwd h HH B1 D1 D2 HO) as (rc & hp' & out & E2 & _).
  rewrite E2 in E. assert (o = mk_oc rc lb1 ms (P_of (x_lim P) h) (repeat 0 64) hp' out) as -> by congruence.
  cbn [oc_lib oc_rc]. right. destruct ES0 as [[_ HN]|ES0]; [destruct (HN eq_refl)|exact ES0].
Qed.
Lemma enc_file_draw M cfg lb hp e fi fo passwd P verbose force o :
  enc_ready M lb hp e passwd P -> instream_ok fi ->
  scryptenc_file M cfg lb hp e fi fo passwd P verbose force = Ok o ->
  lb_drbg (oc_lib o) = lb_drbg lb /\ snd (oc_val o) = fo \/
  exists r, crypto_entropy_read (m_sha M) (m_junk M) (v_ent e) (lb_drbg lb) 32 = Ok (r, lb_drbg (oc_lib o)).
Proof.
  intros [[Hs HPW HH] HX HE HD] [D1 D2] E. rewrite scryptenc_file_eq in E.
  apply bind_inv in E. destruct E as (u & _ & E). apply bind_inv in E. destruct E as ([[[[[lb1 ms] P1] hd] dk] rc] & ES & E).
  pose proof ES as ES0. apply setup_draw in ES0; auto using scratch_bytes_ok, scratch_bytes_length.
  apply scryptenc_setup_inv in ES; auto using scratch_bytes_ok, scratch_bytes_length. destruct ES as (_ & A2 & _ & _ & _ & A6).
  destruct (is_ok rc) eqn:EO.
  2:{ apply is_ok_false in EO. rewrite enc_file_rest_fail in E by assumption. injection E as <-. cbn [oc_lib oc_val snd]. destruct ES0 as [[ES0 _]|ES0]; auto. }
  apply is_ok_spec in EO. subst rc. destruct (A6 eq_refl) as (h & d & B1 & B2 & B3 & B4 & B5 & B6). subst P1 dk hd.
  destruct (enc_file_rest_ok M hp e fi fo lb1 ms (P_of (x_lim P) h) passwd h HH B1 D1 D2) as (rc & hp' & fi' & fo' & E2 & _).
  rewrite E2 in E. assert (o = mk_oc rc lb1 ms (P_of (x_lim P) h) (repeat 0 64) hp' (fi', fo')) as -> by congruence.
  cbn [oc_lib oc_rc]. right. destruct ES0 as [[_ HN]|ES0]; [destruct (HN eq_refl)|exact ES0].
Qed.
(** Where the salt is found. *)
Lemma salt_field passwd h data w : fhead_ok h -> prefix w (fmt_file scrypt_wrapping passwd h data) -> (48 <= length w)%nat -> sub w 16 32 = fh_salt h.
Proof.
  intros Hh [c HP] HL. assert (sub w 16 32 = sub (fmt_file scrypt_wrapping passwd h data) 16 32) as -> by (rewrite HP, sub_app_le by lia; reflexivity).
  assert (length (fh_salt h) = 32%nat) as HS by apply Hh.
  pose proof (get_head_fmt h (skipn 48 (fmt_file scrypt_wrapping passwd h data)) Hh) as G.
  assert (fmt_48 h ++ skipn 48 (fmt_file scrypt_wrapping passwd h data) = fmt_file scrypt_wrapping passwd h data) as EQ.
  { unfold fmt_file, fmt_body, fmt_96, fmt_64. rewrite <- !app_assoc. rewrite skipn_app_len; [reflexivity|]. symmetry. apply fmt_48_length. exact HS. }
  rewrite EQ in G. rewrite <- G at 2. reflexivity.
Qed.
(** Drawing from the generator. *)
Lemma draw_log M e st st' r : env_bytes (v_ent e) -> drbg_inv st ->
  crypto_entropy_read (m_sha M) (m_junk M) (v_ent e) st 32 = Ok (r, st') ->
  exists ops out, seeds_from (v_ent e) 0 ops /\ drbg_run (drbg_abs st) ops = Some (drbg_abs st', out) /\ drbg_limits (gen_count st) ops /\
    (forall s, r = Some s -> length out = 32%nat /\ s = out).
Proof.
  intros HE HD E. destruct (crypto_entropy_read_ok (m_sha M) (m_junk M) (v_ent e) st 32 HE HD) as (r1 & st1 & ops & out & ER & _ & R1 & R2 & R3 & HR).
  rewrite E in ER. assert (r1 = r /\ st1 = st') as (-> & ->) by (split; congruence). exists ops, out. split; [exact R3|]. split; [exact R1|]. split; [exact R2|].
  intros s ->. destruct HR as [(H1 & H2 & _)|(H1 & _)]; [|discriminate]. injection H1 as ->. auto.
Qed.
(** One call. *)
Lemma step_log M cfg lb hp c r lb' hp' :
  size_bits (m_szb M) -> heap_ok hp -> drbg_inv (lb_drbg lb) -> call_ok c -> lib_step M cfg lb hp c = Ok (r, lb', hp') ->
  heap_ok hp' /\ drbg_inv (lb_drbg lb') /\ exists ops out, salt_log c r (ops, out) /\
    drbg_run (drbg_abs (lb_drbg lb)) ops = Some (drbg_abs (lb_drbg lb'), out) /\ drbg_limits (gen_count (lb_drbg lb)) ops.
Proof.
  intros Hs HH HD HC E.
  destruct c as [e data outbuf passwd P v f|e fi fo passwd P v f|e f outbuf outlen passwd P v fc|e fi fo passwd P v f|e fi passwd P v f]; cbn [lib_step call_ok salt_log fst snd] in *;
    apply bind_inv in E; destruct E as (o & EO & E).
  - destruct HC as (H1 & H2 & H3 & H4 & H5). assert (enc_ready M lb hp e passwd P) as HR by (split; [split|..]; auto).
    destruct (C43_buffer_encrypt _ _ _ _ _ _ _ _ _ _ _ _ HR H4 H5 EO) as [_ (HH' & _)].
    pose proof (enc_buf_draw _ _ _ _ _ _ _ _ _ _ _ _ HR H4 H5 EO) as HDR.
    destruct H4 as [H4 H4']. apply scryptenc_buf_inv in EO; auto. destruct EO as (_ & HDI & _ & _ & _ & _ & HRES).
    assert (r = (oc_rc o, if is_ok (oc_rc o) then firstn (length data + 128) (oc_val o) else []) /\ lb' = oc_lib o /\ hp' = oc_heap o) as (-> & -> & ->) by (split; [|split]; congruence). cbn [snd].
    split; [exact HH'|]. split; [exact HDI|].
    assert (oc_rc o = SCRYPT_OK -> salted M e lb (get_head (firstn (length data + 128) (oc_val o)))) as HSA.
    { intros EQ. revert HRES. rewrite EQ. generalize (oc_P o) (oc_val o). intros P' V HRES.
      inversion HRES as [? ? A1|? h A1 A2 A3 A4|h A1 A2 A3]; subst; [congruence|unfold aes_rc in *; destruct (v_key_mem e); discriminate|].
      assert (length (fh_salt h) = 32%nat) as HS by apply A1. rewrite firstn_app_len by (rewrite fmt_file_length; auto). unfold fmt_file, fmt_body, fmt_96, fmt_64. rewrite <- !app_assoc. rewrite get_head_fmt by exact A1. exact A3. }
    destruct HDR as [[HDR HN]|[s HDR]].
    + apply is_ok_false in HN. rewrite HN. exists [], []. split; [split; [constructor|cbn [length]; lia]|]. rewrite HDR. split; [reflexivity|exact I].
    + destruct (draw_log _ _ _ _ _ H3 HD HDR) as (ops & out & L1 & L2 & L3 & L4). exists ops, out. split; [|auto]. split; [exact L1|].
      destruct (is_ok (oc_rc o)) eqn:EQ; [|cbn [length]; lia]. intros _. apply is_ok_spec in EQ. destruct (HSA EQ) as (d & ED). rewrite HDR in ED.
      assert (s = Some (sub (firstn (length data + 128) (oc_val o)) 16 32)) as ES by (injection ED as -> _; reflexivity).
      destruct (L4 _ ES) as [L5 L6]. auto.
  - destruct HC as (H1 & H2 & H3 & H4). assert (enc_ready M lb hp e passwd P) as HR by (split; [split|..]; auto).
    destruct (C43_stream_encrypt _ _ _ _ _ _ _ _ _ _ _ _ HR H4 EO) as (_ & X1 & X2).
    assert (heap_ok (oc_heap o)) as HH'.
    { destruct (rcode_eqb (oc_rc o) SCRYPT_EWRFILE) eqn:EQ.
      - assert (oc_rc o = SCRYPT_EWRFILE) as EW by (destruct (oc_rc o); try discriminate EQ; reflexivity). destruct (X2 EW) as [(X & _)|(h & X & _)]; exact X.
      - assert (oc_rc o <> SCRYPT_EWRFILE) as EW by (intros EW; rewrite EW in EQ; discriminate EQ). destruct (X1 EW) as (X & _). exact X. }
    pose proof (enc_file_draw _ _ _ _ _ _ _ _ _ _ _ _ HR H4 EO) as HDR. clear X1 X2.
    destruct H4 as [H4 H4']. apply scryptenc_file_inv in EO; auto. destruct EO as (_ & HDI & _ & _ & _ & HRES).
    assert (r = (oc_rc o, skipn (length (o_data fo)) (o_data (snd (oc_val o)))) /\ lb' = oc_lib o /\ hp' = oc_heap o) as (-> & -> & ->) by (split; [|split]; congruence). cbn [snd].
    split; [exact HH'|]. split; [exact HDI|].
    assert (forall w, o_data (snd (oc_val o)) = o_data fo ++ w -> (48 <= length w)%nat -> exists d, crypto_entropy_read (m_sha M) (m_junk M) (v_ent e) (lb_drbg lb) 32 = Ok (Some (sub w 16 32), d)) as HSA.
    { revert HRES. generalize (oc_rc o) (oc_P o) (fst (oc_val o)) (snd (oc_val o)) (oc_heap o). intros rc P' fi' fo' h' HRES w EW HW.
      destruct HRES as [rc P' A1 A2|h rc fi' fo' h' A1 A2 A3 A4].
      - exfalso. rewrite <- (app_nil_r (o_data fo)) in EW at 1. apply app_inv_head in EW. subst w. cbn [length] in HW. lia.
      - destruct (enc_tail_written _ _ _ _ _ _ _ _ _ _ _ A4) as (w' & B1 & B2). rewrite B1 in EW. apply app_inv_head in EW. subst w'.
        rewrite (salt_field _ _ _ _ A1 B2 HW). exact A3. }
    destruct HDR as [[HDR HN]|[s HDR]].
    + rewrite HN, skipn_all. exists [], []. split; [split; [constructor|cbn [length]; lia]|]. rewrite HDR. split; [reflexivity|exact I].
    + destruct (draw_log _ _ _ _ _ H3 HD HDR) as (ops & out & L1 & L2 & L3 & L4). exists ops, out. split; [|auto]. split; [exact L1|].
      intros HW. assert (exists w, o_data (snd (oc_val o)) = o_data fo ++ w) as [w EW].
      { revert HRES. generalize (oc_rc o) (oc_P o) (fst (oc_val o)) (snd (oc_val o)) (oc_heap o). intros rc P' fi' fo' h' HRES.
        destruct HRES as [rc P' A1 A2|h rc fi' fo' h' A1 A2 A3 A4]; [exists []; symmetry; apply app_nil_r|].
        destruct (enc_tail_written _ _ _ _ _ _ _ _ _ _ _ A4) as (w' & B1 & B2). eauto. }
      specialize (HSA w EW). rewrite EW, skipn_app_len in * by reflexivity. destruct (HSA HW) as (d & ED). rewrite HDR in ED.
      assert (s = Some (sub w 16 32)) as ES by (injection ED as -> _; reflexivity). destruct (L4 _ ES) as [L5 L6]. auto.
  - destruct HC as (H1 & H2 & H3). destruct (C43_buffer_decrypt _ _ _ _ _ _ _ _ _ _ _ _ _ ltac:(split; eauto) H2 H3 EO) as [_ (HH' & _)].
    destruct H2 as [H2 H2']. apply scryptdec_buf_inv in EO; auto. destruct EO as (_ & HDR & _).
    assert (lb' = oc_lib o /\ hp' = oc_heap o) as (-> & ->) by (split; congruence). split; [exact HH'|]. rewrite HDR. split; [exact HD|].
    exists [], []. split; [reflexivity|]. split; [reflexivity|exact I].
  - destruct HC as (H1 & H2). destruct (C43_stream_decrypt _ _ _ _ _ _ _ _ _ _ _ _ ltac:(split; eauto) H2 EO) as [X1 X2].
    assert (heap_ok (oc_heap o)) as HH'.
    { destruct (rcode_eqb (oc_rc o) SCRYPT_EWRFILE) eqn:EQ.
      - assert (oc_rc o = SCRYPT_EWRFILE) as EW by (destruct (oc_rc o); try discriminate EQ; reflexivity). destruct (X2 EW) as (h & X & _); exact X.
      - assert (oc_rc o <> SCRYPT_EWRFILE) as EW by (intros EW; rewrite EW in EQ; discriminate EQ). destruct (X1 EW) as (X & _). exact X. }
    destruct H2 as [H2 H2']. apply scryptdec_file_inv in EO; auto. destruct EO as (_ & HDR & _).
    assert (lb' = oc_lib o /\ hp' = oc_heap o) as (-> & ->) by (split; congruence). split; [exact HH'|]. rewrite HDR. split; [exact HD|].
    exists [], []. split; [reflexivity|]. split; [reflexivity|exact I].
  - destruct HC as (H1 & [H2 H2']). apply prep_inv in EO; auto. destruct EO as (_ & HDR & PR).
    assert (lb' = oc_lib o /\ hp' = oc_heap o) as (-> & ->) by (split; congruence). rewrite HDR. split.
    { destruct PR as [A1|rc hd fi' hp' A1 A2 A3 A4|rc fi' ms lb' dk hp' A1 A2 A3 A4 A5|fi' ms lb' hp' A1 A2 A3 A4]; [exact HH|apply A4|apply A5|].
      rewrite A4. unfold heap_ok in *. cbn [kh_live kh_next]. constructor; [cbn [fst]; lia|]. eapply Forall_impl; [|exact HH]. intros ob Hob. cbn beta in *. lia. }
    split; [exact HD|]. exists [], []. split; [reflexivity|]. split; [reflexivity|exact I].
Qed.
Lemma history_log M cfg cs : size_bits (m_szb M) -> forall lb hp rs lb' hp', heap_ok hp -> drbg_inv (lb_drbg lb) -> Forall call_ok cs ->
  lib_history M cfg lb hp cs = Ok (rs, lb', hp') ->
  exists logs, salt_logs cs rs logs /\
    drbg_run (drbg_abs (lb_drbg lb)) (concat (map fst logs)) = Some (drbg_abs (lb_drbg lb'), concat (map snd logs)) /\
    drbg_limits (gen_count (lb_drbg lb)) (concat (map fst logs)).
Proof.
  intros Hs. induction cs as [|c cs IH]; intros lb hp rs lb' hp' HH HD HF E; cbn [lib_history] in E.
  - assert (rs = [] /\ lb' = lb) as (-> & ->) by (split; congruence). exists []. split; [constructor|]. split; [reflexivity|exact I].
  - apply Forall_cons_iff in HF. destruct HF as [HC HF]. apply bind_inv in E. destruct E as ([[r lb1] hp1] & E1 & E).
    apply bind_inv in E. destruct E as ([[rs2 lb2] hp2] & E2 & E). assert (rs = r :: rs2 /\ lb' = lb2) as (-> & ->) by (split; congruence).
    destruct (step_log M cfg lb hp c r lb1 hp1 Hs HH HD HC E1) as (HH1 & HD1 & ops & out & S1 & R1 & L1).
    destruct (IH lb1 hp1 rs2 lb2 hp2 HH1 HD1 HF E2) as (logs & S2 & R2 & L2).
    exists ((ops, out) :: logs). split; [constructor; assumption|]. cbn [map concat fst snd]. split; [rewrite (run_app ops _ _ _ _ R1), R2; reflexivity|].
    apply limits_app; [exact L1|]. assert (count_after (gen_count (lb_drbg lb)) ops = gen_count (lb_drbg lb1)) as ->; [|exact L2].
    pose proof (run_count ops _ _ _ R1) as HC1. revert HD HD1 R1 HC1. generalize (lb_drbg lb) (lb_drbg lb1). clear. intros st st1 Hi Hi1 R1 HC.
    unfold drbg_abs, gen_count, drbg_inv in *. destruct (d_inst st) eqn:I0; destruct (d_inst st1) eqn:I1; cbv iota in HC.
    * destruct (Hi eq_refl) as [_ Hc]. specialize (HC ltac:(lia)). symmetry. apply HC.
    * specialize (HC ltac:(destruct (Hi eq_refl); lia)). subst ops. cbn [drbg_run] in R1. discriminate.
    * specialize (HC I). symmetry. apply HC.
    * specialize (HC I). subst ops. reflexivity.
Qed.

(** ** C63 *)
(** Every history of library calls from the start of the process: the salts of the
    files made are pieces, in order and disjoint, of the output of one HMAC_DRBG run
    that starts uninstantiated, is seeded from the operating system only, and stays
    within the limits of the standard; decryptions do not touch it. *)
Theorem C63_salts M cfg sst hp cs rs lb' hp' :
  size_bits (m_szb M) -> heap_ok hp -> Forall call_ok cs ->
  lib_history M cfg (mk_lib sst drbg_initial) hp cs = Ok (rs, lb', hp') ->
  exists logs st, salt_logs cs rs logs /\
    drbg_run None (concat (map fst logs)) = Some (st, concat (map snd logs)) /\
    drbg_limits 0 (concat (map fst logs)).
Proof.
  intros Hs HH HF E. destruct (history_log M cfg cs Hs (mk_lib sst drbg_initial) hp rs lb' hp' HH ltac:(discriminate) HF E) as (logs & A & B & C).
  exists logs, (drbg_abs (lb_drbg lb')). auto.
Qed.
(** Hence no two files of a process share any generator output: their salts lie at
    places at least 32 bytes apart in it. *)
Definition encrypting (c : lib_call) : Prop :=
  match c with C_enc_buf _ _ _ _ _ _ _ | C_enc_file _ _ _ _ _ _ _ => True | _ => False end.
Lemma logs_at cs rs logs : salt_logs cs rs logs -> forall i c r, nth_error cs i = Some c -> nth_error rs i = Some r -> encrypting c -> (48 <= length (snd r))%nat ->
  exists log, nth_error logs i = Some log /\ length (snd log) = 32%nat /\ sub (snd r) 16 32 = snd log.
Proof.
  induction 1 as [|c cs r rs l ls H HS IH]; intros i c0 r0 EC ER HE HW; [destruct i; discriminate|].
  destruct i as [|i]; cbn [nth_error] in *; [|exact (IH i c0 r0 EC ER HE HW)]. exists l. split; [reflexivity|].
  injection EC as ->. injection ER as ->. destruct c0; cbn [encrypting salt_log] in *; try contradiction; destruct H as [_ H]; exact (H HW).
Qed.
Lemma concat_at {A B} (f : A -> list B) ls : forall i l, nth_error ls i = Some l ->
  sub (concat (map f ls)) (length (concat (map f (firstn i ls)))) (length (f l)) = f l /\
  (length (concat (map f (firstn i ls))) + length (f l) = length (concat (map f (firstn (S i) ls))))%nat.
Proof.
  induction ls as [|x ls IH]; intros [|i] l E; try discriminate E; cbn [nth_error] in E.
  - injection E as ->. cbn [firstn map concat length]. split; [unfold sub; cbn [skipn]; apply firstn_app_len; reflexivity|rewrite app_nil_r; lia].
  - destruct (IH i l E) as [H1 H2]. cbn [firstn map concat]. rewrite !app_length. split.
    + unfold sub in *. rewrite skipn_app, skipn_all2 by lia. replace (length (f x) + length (concat (map f (firstn i ls))) - length (f x))%nat with (length (concat (map f (firstn i ls)))) by lia. exact H1.
    + cbn [firstn map concat] in H2. lia.
Qed.
Lemma concat_mono {A B} (f : A -> list B) ls : forall i j, (i <= j)%nat -> (length (concat (map f (firstn i ls))) <= length (concat (map f (firstn j ls))))%nat.
Proof.
  induction ls as [|x ls IH]; intros [|i] [|j] H; cbn [firstn map concat length]; try lia. rewrite !app_length. specialize (IH i j ltac:(lia)). lia.
Qed.
Theorem C63_disjoint M cfg sst hp cs rs lb' hp' :
  size_bits (m_szb M) -> heap_ok hp -> Forall call_ok cs ->
  lib_history M cfg (mk_lib sst drbg_initial) hp cs = Ok (rs, lb', hp') ->
  exists ops st out, drbg_run None ops = Some (st, out) /\ drbg_limits 0 ops /\
    exists place, forall i c r, nth_error cs i = Some c -> nth_error rs i = Some r -> encrypting c -> (48 <= length (snd r))%nat ->
      sub (snd r) 16 32 = sub out (place i) 32 /\ (place i + 32 <= length out)%nat /\
      forall j c' r', (i < j)%nat -> nth_error cs j = Some c' -> nth_error rs j = Some r' -> encrypting c' -> (48 <= length (snd r'))%nat -> (place i + 32 <= place j)%nat.
Proof.
  intros Hs HH HF E. destruct (C63_salts M cfg sst hp cs rs lb' hp' Hs HH HF E) as (logs & st & SL & R & L).
  exists (concat (map fst logs)), st, (concat (map snd logs)). split; [exact R|]. split; [exact L|].
  exists (fun i => length (concat (map snd (firstn i logs)))). intros i c r EC ER HE HW.
  destruct (logs_at cs rs logs SL i c r EC ER HE HW) as (log & N1 & N2 & N3). destruct (concat_at snd logs i log N1) as [P1 P2]. rewrite N2 in *.
  split; [rewrite P1; exact N3|]. split.
  - pose proof (concat_mono snd logs (S i) (Nat.max (S i) (length logs)) ltac:(lia)) as HM. rewrite (firstn_all2 (n := Nat.max _ _)) in HM by lia. lia.
  - intros j c' r' HJ _ _ _ _. pose proof (concat_mono snd logs (S i) j ltac:(lia)). lia.
Qed.
(** Encrypting "hello", decrypting the result, and encrypting "hello" again: both
    encryptions make a file of 133 bytes. *)
Definition ex_enc : lib_call := C_enc_buf ex_call ex_data (repeat 0 140) ex_passwd ex_P true false.
Lemma ex_enc_ok : call_ok ex_enc.
Proof.
  destruct (ex_enc_ready ex_P ltac:(split; reflexivity)) as [[_ H1 _] H2 H3 _].
  split; [exact H1|]. split; [exact H2|]. split; [exact H3|]. split; [split; [repeat constructor|reflexivity]|]. apply leb_complete. reflexivity.
Qed.
Lemma ex_enc_step lb hp : heap_ok hp -> drbg_inv (lb_drbg lb) ->
  exists rc w lb' hp', lib_step ex_machine ex_cfg lb hp ex_enc = Ok (rc, w, lb', hp') /\ rc = SCRYPT_OK /\ length w = 133%nat /\ bytes_ok w.
Proof.
  intros HH HD. destruct ex_enc_ok as (H1 & H2 & H3 & H4 & H5).
  destruct (ex_enc_ready ex_P ltac:(split; reflexivity)) as [[Hs _ _] _ _ _].
  destruct (C33_succeeds (m_sha ex_machine) (m_junk ex_machine) ex_ent (lb_drbg lb) 32 H3 HD) as (salt & d & E & L & B & _).
  { intros k len Hl. exists (repeat 7 len). repeat (split; [reflexivity|]).
    assert (oe_read (ce_os ex_ent k) 0 = Some (repeat 7 48)) as HR by reflexivity.
    destruct Hl as [-> | ->].
    + change (repeat 7 48) with (firstn 48 (repeat 7 48) ++ ([] : bytes)). apply del_read; [lia|exact HR|discriminate|]. constructor.
    + change (repeat 7 32) with (firstn 32 (repeat 7 48) ++ ([] : bytes)). apply del_read; [lia|exact HR|discriminate|]. constructor. }
  destruct (ex_speed (lb_smix lb)) as [opps HS].
  assert (enc_ready ex_machine lb hp ex_call ex_passwd ex_P) as HR by (split; [split|..]; auto).
  assert (computable ex_machine (mk_fh (Z.to_N (x_logN ex_P)) (x_r ex_P) (x_p ex_P) salt)) as HCO.
  { unfold computable. cbn [fh_logN fh_r fh_p ex_P x_logN x_r x_p ex_machine m_szb].
    change (Z.to_N 14) with 14. constructor; try (vm_compute; congruence); exists 14; split; [lia|reflexivity]. }
  assert (explicit_valid ex_P) as HV by (unfold explicit_valid; cbn; lia).
  destruct (C47_valid ex_machine ex_cfg lb hp ex_call ex_data (repeat 0 140) ex_passwd ex_P true (2 ^ 30) opps salt d HR H4 H5 HV ex_no_failure HCO E (ex_budget _) HS) as (o & _ & _ & _ & EO & E1 & _ & E3 & _).
  unfold lib_step, ex_enc. rewrite EO, bind_Ok, E1. change (is_ok SCRYPT_OK) with true. cbv iota.
  exists SCRYPT_OK, (firstn (length ex_data + 128) (oc_val o)), (oc_lib o), (oc_heap o). split; [reflexivity|]. split; [reflexivity|].
  assert (fhead_ok (mk_fh (Z.to_N (x_logN ex_P)) (x_r ex_P) (x_p ex_P) salt)) as Hh.
  { unfold fhead_ok. cbn [fh_logN fh_r fh_p fh_salt ex_P x_logN x_r x_p]. repeat split; auto; try (vm_compute; congruence). }
  rewrite E3, firstn_app_len by (rewrite fmt_file_length by exact L; reflexivity). split; [rewrite fmt_file_length by exact L; reflexivity|].
  apply fmt_file_ok; [exact Hh|]. apply H4.
Qed.
Example C63_hyps : exists f rs lb' hp', let cs := [ex_enc; C_dec_buf ex_call f (repeat 0 140) 0 ex_passwd ex_P0 false true; ex_enc] in
  Forall call_ok cs /\ heap_ok ex_heap /\ lib_history ex_machine ex_cfg (mk_lib None drbg_initial) ex_heap cs = Ok (rs, lb', hp') /\
  exists a b c, rs = [a; b; c] /\ length (snd a) = 133%nat /\ snd a = f /\ length (snd c) = 133%nat.
Proof.
  destruct ex_dec_ready as [Hs HPW HH]. pose proof ex_enc_ok as HC.
  destruct (ex_enc_step (mk_lib None drbg_initial) ex_heap HH ltac:(discriminate)) as (rc1 & f & lb1 & hp1 & E1 & -> & L1 & B1).
  assert (drbg_inv (lb_drbg (mk_lib None drbg_initial))) as HD0 by discriminate.
  destruct (step_log ex_machine ex_cfg (mk_lib None drbg_initial) ex_heap ex_enc (SCRYPT_OK, f) lb1 hp1 Hs HH HD0 HC E1) as (HH1 & HD1 & _).
  assert (data_ok f) as HF by (split; [exact B1|rewrite L1; reflexivity]).
  assert (length f - 128 <= length (repeat 0%N 140))%nat as HL by (rewrite L1; apply leb_complete; reflexivity).
  destruct (C06_status_buffer ex_machine ex_cfg lb1 hp1 ex_call f (repeat 0 140) 0 ex_passwd ex_P0 false ltac:(split; auto) HF HL eq_refl ex_no_failure) as (o2 & E2 & _).
  set (c2 := C_dec_buf ex_call f (repeat 0 140) 0 ex_passwd ex_P0 false true).
  assert (lib_step ex_machine ex_cfg lb1 hp1 c2 = Ok (oc_rc o2, [], oc_lib o2, oc_heap o2)) as E2' by (unfold c2, lib_step; rewrite E2; reflexivity).
  assert (call_ok c2) as HC2 by (split; [exact HPW|]; split; assumption).
  destruct (step_log ex_machine ex_cfg lb1 hp1 c2 (oc_rc o2, []) (oc_lib o2) (oc_heap o2) Hs HH1 HD1 HC2 E2') as (HH2 & HD2 & _).
  destruct (ex_enc_step (oc_lib o2) (oc_heap o2) HH2 HD2) as (rc3 & g & lb3 & hp3 & E3 & -> & L3 & B3).
  exists f, [(SCRYPT_OK, f); (oc_rc o2, []); (SCRYPT_OK, g)], lb3, hp3. cbv zeta. fold c2.
  split; [constructor; [exact HC|constructor; [exact HC2|constructor; [exact HC|constructor]]]|]. split; [exact HH|]. split.
  - cbn [lib_history]. rewrite E1. cbn [bind]. rewrite E2'. cbn [bind]. rewrite E3. reflexivity.
  - exists (SCRYPT_OK, f), (oc_rc o2, []), (SCRYPT_OK, g). auto.
Qed.
Definition Prop_history_all := (C63_salts, C63_disjoint).
Print Assumptions Prop_history_all.
