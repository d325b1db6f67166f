(** C13, C14, C15 at the level of the interface: what a successful encryption with
    automatic parameters has put into the header. *)
From Coq Require Import Reals Lra.
From Flocq Require Import Core IEEE754.BinarySingleNaN.
From Verif Require Import Base SpecBytes SpecSHA SpecScrypt SpecScryptAPI SpecAES SpecDRBG SpecDouble SpecFormat SpecStream
  M_smix P_scrypt P_scrypt_ref M_machine M_double M_memlimit M_cpuperf
  M_params Prop_params M_stdio P_stdio M_scryptenc SpecScryptenc P_scryptenc P_scryptenc2 P_scryptenc3 P_scryptenc4 P_scryptenc5
  P_scryptenc6 P_scryptenc7 Prop_enc Prop_dec P_monotone Prop_monotone Prop_explicit P_enc_params.
From Coq Require Import Lia.
Local Opaque ENCBLOCK.
Local Open Scope N_scope.

(** h is a best choice for a memory budget of L bytes and an operation limit ops:
    r = 8; the table fits the budget; the work fits the limit (or is the minimum of
    2^15 operations); and either N could not be doubled within the limit, or it could
    not be doubled within the budget and p could not be increased. *)
Definition best_choice (L : N) (ops : double) (h : fhead) : Prop :=
  let work n p := 4 * n * fh_r h * p in
  let too_slow n := 2 ^ 15 < n /\ ~ fits n ops in
  let NN := 2 ^ fh_logN h in
  fh_r h = 8 /\ 128 * NN * fh_r h <= L /\ (work NN (fh_p h) <= 2 ^ 15 \/ fits (work NN (fh_p h)) ops) /\
  ((fh_p h = 1 /\ too_slow (work (2 * NN) (fh_p h))) \/
   (L < 128 * (2 * NN) * fh_r h /\ (too_slow (work NN (fh_p h + 1)) \/ 2 ^ 30 <= fh_r h * (fh_p h + 1)))).

Lemma picked_best M cfg lb e P v P' : size_bits (m_szb M) -> is_number (l_maxtime (x_lim P)) -> clock_sane (v_params e) -> picked M cfg lb e P v P' ->
  exists L opps, budget M (v_params e) (x_lim P) L /\ speed M cfg (lb_smix lb) (v_params e) opps /\
    forall h, P' = mk_xp (x_lim P) (Z.of_N (fh_logN h)) (fh_r h) (fh_p h) -> best_choice L (dmul opps (l_maxtime (x_lim P))) h.
Proof.
  intros Hs Ht Hc (sst & m & l & r & p & E & ->).
  destruct (C14_chosen_parameters_respect_limits _ _ _ _ _ _ _ _ _ _ _ Hs Ht Hc E) as (L & o & B & S & A1 & A2).
  destruct (C15_chosen_parameters_maximal _ _ _ _ _ _ _ _ _ _ _ Hs Ht Hc E) as (L' & o' & B' & S' & A3).
  destruct (C13_chosen_parameters_valid _ _ _ _ _ _ _ _ _ _ _ Hs Ht Hc E) as (_ & A0 & _).
  rewrite (speed_fun _ _ _ _ _ _ S S') in *. assert (L' = L) as -> by (unfold budget in *; congruence).
  exists L, o. split; [exact B|]. split; [exact S|]. intros h Eh. injection Eh as H1 H2 H3. apply N2Z.inj in H1. rewrite H1, H2, H3 in *.
  unfold best_choice. cbv zeta in *. auto.
Qed.

Theorem C15_encrypt_buffer M cfg lb hp e data outbuf passwd P verbose force o :
  enc_ready M lb hp e passwd P -> data_ok data -> (length data + 128 <= length outbuf)%nat ->
  x_logN P = 0%Z -> is_number (l_maxtime (x_lim P)) -> clock_sane (v_params e) ->
  scryptenc_buf M cfg lb hp e data outbuf passwd P verbose force = Ok o -> oc_rc o = SCRYPT_OK ->
  exists h L opps, oc_val o = fmt_file scrypt_wrapping passwd h data ++ skipn (length data + 128) outbuf /\ fhead_ok h /\
    budget M (v_params e) (x_lim P) L /\ speed M cfg (lb_smix lb) (v_params e) opps /\
    best_choice L (dmul opps (l_maxtime (x_lim P))) h.
Proof.
  intros HR HD HO HZ Ht Hc E EO. destruct (C02_format _ _ _ _ _ _ _ _ _ _ _ HR HD HO _ E EO) as (l & r & p & salt & st & _ & H1 & _ & H2 & _ & H3 & _).
  destruct (picked_best _ _ _ _ _ _ _ ltac:(apply HR) Ht Hc (enc_buf_picked _ _ _ _ _ _ _ _ _ _ _ _ HZ E EO)) as (L & opps & B & S & HX).
  exists (mk_fh l r p salt), L, opps. split; [exact H3|]. split; [exact H1|]. split; [exact B|]. split; [exact S|]. apply HX. exact H2.
Qed.
Theorem C15_encrypt_stream M cfg lb hp e fi fo passwd P verbose force o :
  enc_ready M lb hp e passwd P -> instream_ok fi ->
  x_logN P = 0%Z -> is_number (l_maxtime (x_lim P)) -> clock_sane (v_params e) ->
  scryptenc_file M cfg lb hp e fi fo passwd P verbose force = Ok o -> oc_rc o = SCRYPT_OK ->
  exists h L opps, o_data (snd (oc_val o)) = o_data fo ++ fmt_file scrypt_wrapping passwd h (stream_data fi) /\ fhead_ok h /\
    budget M (v_params e) (x_lim P) L /\ speed M cfg (lb_smix lb) (v_params e) opps /\
    best_choice L (dmul opps (l_maxtime (x_lim P))) h.
Proof.
  intros HR [D1 D2] HZ Ht Hc E EO. 
  destruct (picked_best _ _ _ _ _ _ _ ltac:(apply HR) Ht Hc (enc_file_picked _ _ _ _ _ _ _ _ _ _ _ _ HZ E EO)) as (L & opps & B & S & HX).
  destruct HR as [[Hs HPW HH] HXP HE HDR].
  apply scryptenc_file_inv in E; auto. destruct E as (_ & _ & _ & _ & _ & HR). rewrite EO in HR.
  revert HR HX. generalize (oc_P o) (oc_val o) (oc_heap o). intros P' [fi' fo'] hp' HR HX. cbn [fst snd] in *.
  inversion HR as [rc P1 A1 A2|h rc fi1 fo1 hp1 A1 A2 A3 A4]; [congruence|]. subst.
  exists h, L, opps. split; [|split; [exact A1|]; split; [exact B|]; split; [exact S|]; apply HX; reflexivity].
  inversion A4 as [|rc fo2 hp2 Y1| | | |]; try assumption.
  exfalso. unfold aes_rc in Y1. destruct (v_key_mem e); discriminate Y1.
Qed.
(** The hypotheses are met by encryptions that succeed. *)
Example C15_encrypt_hyps : exists ob fi fo of, enc_ready ex_machine ex_lib ex_heap ex_call ex_passwd ex_P0 /\ x_logN ex_P0 = 0%Z /\
  is_number (l_maxtime (x_lim ex_P0)) /\ clock_sane (v_params ex_call) /\
  scryptenc_buf ex_machine ex_cfg ex_lib ex_heap ex_call ex_data (repeat 0 140) ex_passwd ex_P0 true false = Ok ob /\ oc_rc ob = SCRYPT_OK /\
  instream_ok fi /\ scryptenc_file ex_machine ex_cfg ex_lib ex_heap ex_call fi fo ex_passwd ex_P0 true false = Ok of /\ oc_rc of = SCRYPT_OK.
Proof.
  destruct C02_auto_hyps as (L & opps & salt & d & H1 & H2 & H3 & H4 & H5 & H6 & H7 & H8).
  assert (data_ok ex_data) as HD by (split; [repeat constructor|reflexivity]).
  assert (length ex_data + 128 <= length (repeat 0%N 140))%nat as HO by (rewrite repeat_length; cbn; lia).
  destruct (C02_auto_succeeds _ _ _ _ _ _ _ _ _ true _ _ _ _ H1 HD HO H2 ex_no_failure H3 H4 H5 H6 H7 H8) as (ob & l & p & E & EO & _).
  assert (delivered ex_data (mk_in [(ex_data, false)] false)) as HDE.
  { split; [reflexivity|]. split; [|cbn [i_pieces map fst concat]; apply app_nil_r]. constructor; [|constructor]. split; [discriminate|reflexivity]. }
  destruct (C03_stream_equals_buffer _ _ _ _ _ _ _ _ (mk_out [] [] false) _ _ _ _ _ H1 HD HO HDE ltac:(constructor) eq_refl E) as (of & EF & EFO & _).
  exists ob, (mk_in [(ex_data, false)] false), (mk_out [] [] false), of.
  split; [exact H1|]. split; [reflexivity|]. split; [exact H4|]. split; [exact H5|]. split; [exact E|]. split; [exact EO|].
  split; [|split; [exact EF|congruence]]. split; [constructor; [repeat constructor|constructor]|reflexivity].
Qed.
Definition Prop_auto_all := (C15_encrypt_buffer, C15_encrypt_stream).
Print Assumptions Prop_auto_all.
