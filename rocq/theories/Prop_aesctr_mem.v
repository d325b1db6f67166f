(** C54: the AES-CTR interface on overlapping buffers. *)
From Verif Require Import Base SpecBytes SpecAES M_aes_hw M_aesctr P_aes P_aesctr P_scrypt_ref Prop_aes M_aesctr_mem P_aesctr_mem.

(** What the documentation of the interface allows (crypto_aesctr.h:36-41): both
    buffers inside the memory; "if the buffers overlap, they must be identical". *)
Definition allowed (b : bufs) : Prop :=
  (b_in b + b_len b <= length (b_mem b))%nat /\ (b_out b + b_len b <= length (b_mem b))%nat /\
  (b_in b = b_out b \/ b_in b + b_len b <= b_out b \/ b_out b + b_len b <= b_in b)%nat.
(** The bytes of the input buffer at the time of the call. *)
Definition data_in (b : bufs) : bytes := firstn (b_len b) (skipn (b_in b) (b_mem b)).
(** Memory [m'] is [b]'s memory with the output buffer containing [out]: the
    output buffer reads as [out] and every byte outside it is unchanged. *)
Definition written (b : bufs) (out m' : bytes) : Prop :=
  length m' = length (b_mem b) /\ firstn (b_len b) (skipn (b_out b) m') = out /\
  forall i, (i < b_out b \/ b_out b + b_len b <= i)%nat -> nth i m' 0 = nth i (b_mem b) 0.

Lemma allowed_usable b : allowed b -> usable b.
Proof. intros (H1 & H2 & H3). unfold usable. lia. Qed.
Lemma upd_written b out : (b_out b + b_len b <= length (b_mem b))%nat -> length out = b_len b -> written b out (upd (b_mem b) (b_out b) out).
Proof.
  intros H HL. assert (b_out b + length out <= length (b_mem b))%nat as HO by lia. split; [apply upd_length; lia|]. split.
  - fold (sub (upd (b_mem b) (b_out b) out) (b_out b) (b_len b)). apply list_ext. intros k.
    rewrite nth_error_sub by (rewrite upd_length; lia). rewrite nth_error_upd by lia.
    destruct (Nat.ltb_spec k (b_len b)).
    + destruct (Nat.ltb_spec (b_out b + k) (b_out b)); [lia|]. destruct (Nat.ltb_spec (b_out b + k) (b_out b + length out)); [|lia]. f_equal. lia.
    + symmetry. apply nth_error_None. lia.
  - intros i Hi. assert (nth_error (upd (b_mem b) (b_out b) out) i = nth_error (b_mem b) i) as HN.
    { rewrite nth_error_upd by lia. destruct (Nat.ltb_spec i (b_out b)); [reflexivity|].
      destruct (Nat.ltb_spec i (b_out b + length out)); [lia|reflexivity]. }
    destruct (nth_error (b_mem b) i) as [x|] eqn:E1.
    + rewrite (nth_error_nth _ _ 0 HN), (nth_error_nth _ _ 0 E1). reflexivity.
    + apply nth_error_None in HN, E1. rewrite !nth_overflow by lia. reflexivity.
Qed.

Inductive all_written : list bufs -> list bytes -> list bytes -> Prop :=
| aw_nil : all_written [] [] []
| aw_cons b bs o os m ms : written b o m -> all_written bs os ms -> all_written (b :: bs) (o :: os) (m :: ms).
Lemma mem_calls_ok hw hi key nonce : forall calls pos st, stream_at hw key nonce pos st -> Forall usable calls ->
  pos + N.of_nat (length (concat (map data_in calls))) < 2 ^ 64 ->
  exists outs ms st', mem_calls hw hi st calls = Ok (ms, st') /\ stream_calls hw hi st (map data_in calls) = Ok (outs, st') /\
    all_written calls outs ms /\ concat outs = aes_ctr key nonce pos (concat (map data_in calls)).
Proof.
  induction calls as [|b t IH]; intros pos st HA HF HO; cbn [mem_calls map stream_calls concat].
  - exists [], [], st. repeat split; constructor.
  - inversion HF as [|? ? U HF']; subst. cbn [map concat] in HO. rewrite app_length in HO. fold (input b) in *. change (data_in b) with (input b) in *.
    rewrite (input_length b U) in HO.
    destruct (stream_mem_ok hw hi key nonce pos st b HA U ltac:(lia)) as (st1 & E1 & E2 & HA1).
    rewrite E1, E2, !bind_Ok.
    destruct (IH (pos + N.of_nat (b_len b)) st1 HA1 HF' ltac:(lia)) as (outs & ms & st' & -> & -> & HW & EC). rewrite !bind_Ok.
    eexists _, _, st'. split; [reflexivity|]. split; [reflexivity|]. split.
    + constructor; [|exact HW]. apply upd_written; [apply U|]. rewrite aes_ctr_length. apply input_length, U.
    + cbn [concat]. rewrite EC, aes_ctr_app, (input_length b U). reflexivity.
Qed.

(** Any history of calls on a fresh stream, each with identical or disjoint
    buffers, on every implementation: the output buffers receive the successive
    pieces of the input xor the AES-CTR key stream - exactly what separate
    buffers would give - and no other byte of memory changes. *)
Theorem C54_in_place hw hi key old obuf opblk nonce calls :
  (length key = 16 \/ length key = 32)%nat -> bytes_ok key -> length old = 15%nat ->
  length obuf = 16%nat -> length opblk = 16%nat -> Forall allowed calls ->
  N.of_nat (length (concat (map data_in calls))) < 2 ^ 64 ->
  exists k st outs ms st',
    crypto_aes_key_expand hw true old key (length key) = Ok (Some k) /\
    crypto_aesctr_init true obuf opblk k nonce = Ok (Some st) /\
    mem_calls hw hi st calls = Ok (ms, st') /\
    stream_calls hw hi st (map data_in calls) = Ok (outs, st') /\
    all_written calls outs ms /\
    concat outs = aes_ctr key nonce 0 (concat (map data_in calls)).
Proof.
  intros HL HB HO Hb Hp HF Hlen.
  destruct (expand_rep hw key old HL HB HO) as (k & Ek & Hk).
  destruct (init2_ok hw key k nonce None obuf opblk Hk Hb Hp) as (st & Es & Hs).
  destruct (mem_calls_ok hw hi key nonce calls 0 st Hs) as (outs & ms & st' & E1 & E2 & E3 & E4).
  - eapply Forall_impl; [|exact HF]. intros b. apply allowed_usable.
  - lia.
  - exists k, st, outs, ms, st'. unfold crypto_aesctr_init. cbn [negb]. rewrite Es, bind_Ok. auto 10.
Qed.
Print Assumptions C54_in_place.
(** The way scryptenc_file and scryptdec_file_copy use it: a whole buffer in place. *)
Theorem C54_same_buffer hw hi key old k obuf opblk nonce st buf n :
  (length key = 16 \/ length key = 32)%nat -> bytes_ok key -> length old = 15%nat ->
  crypto_aes_key_expand hw true old key (length key) = Ok (Some k) ->
  length obuf = 16%nat -> length opblk = 16%nat -> crypto_aesctr_init true obuf opblk k nonce = Ok (Some st) ->
  (n <= length buf)%nat -> N.of_nat n < 2 ^ 64 ->
  exists st', crypto_aesctr_stream_mem hw hi st buf 0 0 n = Ok (aes_ctr key nonce 0 (firstn n buf) ++ skipn n buf, st') /\
    crypto_aesctr_stream hw hi st (firstn n buf) = Ok (aes_ctr key nonce 0 (firstn n buf), st').
Proof.
  intros KL KB KO Ek Hb Hp Ei Hn HO. pose proof (expanded hw key old k KL KB KO Ek) as Hk.
  destruct (init2_ok hw key k nonce None obuf opblk Hk Hb Hp) as (s & Es & Hs).
  unfold crypto_aesctr_init in Ei. cbn [negb] in Ei. rewrite Es, bind_Ok in Ei. assert (s = st) as -> by congruence.
  destruct (stream_mem_ok hw hi key nonce 0 st (mk_bufs buf 0 0 n) Hs) as (st' & E1 & E2 & _).
  - unfold usable. cbn [b_in b_out b_len b_mem]. lia.
  - cbn [b_len]. lia.
  - exists st'. unfold input in E1, E2. cbn [b_in b_out b_len b_mem] in E1, E2. change (sub buf 0 n) with (firstn n buf) in E1, E2.
    split; [|exact E1]. rewrite E2. unfold upd. rewrite aes_ctr_length, firstn_length, firstn_O. cbn [app Nat.add].
    replace (Nat.min n (length buf)) with n by lia. reflexivity.
Qed.
Print Assumptions C54_same_buffer.
(** The documented restriction is needed: with an output buffer that starts one
    byte after the input, the second byte of output is computed from the first
    byte of output instead of the second byte of input. *)
Theorem C54_overlap_refuted hw hi key nonce st a b c : stream_at hw key nonce 1 st ->
  exists st', crypto_aesctr_stream_mem hw hi st [a; b; c] 0 1 2 =
    Ok ([a; N.lxor a (ctr_byte key nonce 1); N.lxor (N.lxor a (ctr_byte key nonce 1)) (ctr_byte key nonce 2)], st').
Proof.
  intros [A1 A2 A3 A4 A5 A6 A7 A8 A9]. specialize (A9 ltac:(discriminate)).
  unfold crypto_aesctr_stream_mem, pre_mem. rewrite A2. change (N.to_nat (1 mod 16)) with 1%nat. cbn [b_len Nat.eqb Nat.leb Nat.add].
  unfold use_mem. cbn [b_in b_out b_len b_mem].
  assert (length (s_buf st) = 16%nat) as HB by exact A4.
  assert (sub (s_buf st) 1 1 = [ctr_byte key nonce 1] /\ sub (s_buf st) 2 1 = [ctr_byte key nonce 2]) as [K1 K2].
  { unfold ctr_byte. rewrite A9. change (1 / 16) with 0. change (2 / 16) with 0. change (N.to_nat (1 mod 16)) with 1%nat. change (N.to_nat (2 mod 16)) with 2%nat.
    rewrite A9 in HB. change (1 / 16) with 0 in HB. set (l := ctr_block key nonce 0) in *. clearbody l. clear -HB.
    do 3 (destruct l as [|? l]; [discriminate|]). split; reflexivity. }
  cbn [use_loop Nat.add]. rewrite rd_ok, bind_Ok by (cbn [length]; lia). rewrite rd_ok, bind_Ok by (rewrite HB; lia). rewrite K1.
  change (sub [a; b; c] 0 1) with [a]. cbn [xorl]. rewrite wr_ok, bind_Ok by (cbn [length]; lia).
  change (upd [a; b; c] 1 [N.lxor a (ctr_byte key nonce 1)]) with [a; N.lxor a (ctr_byte key nonce 1); c].
  rewrite rd_ok, bind_Ok by (cbn [length]; lia). rewrite rd_ok, bind_Ok by (rewrite HB; lia). rewrite K2.
  eexists. reflexivity.
Qed.
Print Assumptions C54_overlap_refuted.

(** Three in-place calls of 5, 40 and 20 bytes on the same buffer meet the hypotheses. *)
Definition ex_calls : list bufs := [mk_bufs (repeat 7 64) 3 3 5; mk_bufs (repeat 7 64) 8 8 40; mk_bufs (repeat 7 64) 0 32 20].
Example C54_hyps (hw : aes_hw) : exists (key : bytes) (k : aes_key) (st : ctr_stream), length key = 32%nat /\ bytes_ok key /\ Forall allowed ex_calls /\
  N.of_nat (length (concat (map data_in ex_calls))) < 2 ^ 64 /\
  crypto_aes_key_expand hw true (repeat [] 15) key 32 = Ok (Some k) /\ crypto_aesctr_init true (repeat 0 16) (repeat 0 16) k 5 = Ok (Some st) /\
  exists st1 m, crypto_aesctr_stream_mem hw [] st (repeat 7 64) 0 0 1 = Ok (m, st1) /\ stream_at hw key 5 1 st1.
Proof.
  exists (repeat 9 32). destruct (expand_rep hw (repeat 9 32) (repeat [] 15)) as (k & Ek & Hk); [right; reflexivity|repeat constructor|reflexivity|].
  destruct (init2_ok hw (repeat 9 32) k 5 None (repeat 0 16) (repeat 0 16) Hk eq_refl eq_refl) as (st & Es & Hs).
  exists k, st. split; [reflexivity|]. split; [repeat constructor|]. split.
  { unfold ex_calls. repeat constructor; cbn [b_in b_out b_len b_mem]; rewrite ?repeat_length; lia. }
  split; [reflexivity|]. split; [exact Ek|]. split; [unfold crypto_aesctr_init; cbn [negb]; rewrite Es, bind_Ok; reflexivity|].
  destruct (stream_mem_ok hw [] (repeat 9 32) 5 0 st (mk_bufs (repeat 7 64) 0 0 1) Hs) as (st1 & _ & E & HA).
  - unfold usable. cbn [b_in b_out b_len b_mem]. rewrite repeat_length. lia.
  - cbn [b_len]. lia.
  - exists st1. eexists. split; [exact E|exact HA].
Qed.
Definition Prop_aesctr_mem_all := (C54_in_place, C54_same_buffer, C54_overlap_refuted).
Print Assumptions Prop_aesctr_mem_all.
