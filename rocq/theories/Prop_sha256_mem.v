(** C68: the hash functions leave nothing of what they hashed in their own memory. *)
From Verif Require Import Base SpecBytes SpecSHA M_endian P_endian M_sha256_tr P_sha256_tr
  M_simd M_sha256_hw P_sha256_hw M_sha256 P_sha256 M_memzero P_memzero M_sha256_mem P_sha256_mem.

(* ------------------------------------------------------------------ *)
(** * Specification *)

(** A blank piece of memory: [n] elements, all zero. *)
Definition blank (n : nat) (l : list N) : Prop := length l = n /\ Forall (fun b => b = 0) l.
(** A blank context. *)
Definition blank_sha (c : sha_ctx) : Prop := blank 8 (c_state c) /\ c_count c = 0 /\ blank 64 (c_buf c).
Definition blank_hmac (c : hmac_ctx) : Prop := blank_sha (h_ictx c) /\ blank_sha (h_octx c).

(** Memory of the declared size, holding anything. *)
Definition any_sha (c : sha_ctx) : Prop := length (c_state c) = 8%nat /\ length (c_buf c) = 64%nat.
Definition any_hmac (c : hmac_ctx) : Prop := any_sha (h_ictx c) /\ any_sha (h_octx c).
Definition any_stack (s : pb_stack) : Prop :=
  any_hmac (s_Phctx s) /\ any_hmac (s_PShctx s) /\ any_hmac (s_hctx s) /\ length (s_tmp32 s) = 72%nat /\
  length (s_tmp8 s) = 96%nat /\ length (s_ivec s) = 4%nat /\ length (s_U s) = 32%nat /\
  length (s_T s) = 32%nat.

(** Whatever a transform leaves in the 72 scratch words, it stays inside them. *)
Definition in_bounds (leave : list N -> bytes -> list N -> list N) : Prop :=
  forall st b t, length t = 72%nat -> length (leave st b t) = 72%nat.

(** A caller's use of the streaming interface: SHA256_Init, one SHA256_Update
    for each element of [calls], SHA256_Final.  Beside each input stands what
    the stack happened to hold when that call was made.  The result: the
    digest buffer, the context, and the scratch array of each call as that
    call left it. *)
Fixpoint sha_calls hw leave (ctx : sha_ctx) (calls : list (bytes * list N))
  : res (sha_ctx * list (list N)) :=
  match calls with
  | [] => Ok (ctx, [])
  | (d, t) :: rest =>
      ' (ctx, t') <- mem_Update hw leave ctx d t ;;
      ' (ctx, ts) <- sha_calls hw leave ctx rest ;;
      Ok (ctx, t' :: ts)
  end.
Definition sha_session hw leave ctx calls digest t : res (bytes * sha_ctx * list (list N)) :=
  ' (ctx, ts) <- sha_calls hw leave (SHA256_Init ctx) calls ;;
  ' (digest, ctx, t') <- mem_Final hw leave digest ctx t ;;
  Ok (digest, ctx, ts ++ [t']).

(** The same for HMAC_SHA256_Init, HMAC_SHA256_Update ..., HMAC_SHA256_Final. *)
Fixpoint hmac_calls hw leave (ctx : hmac_ctx) (calls : list (bytes * list N))
  : res (hmac_ctx * list (list N)) :=
  match calls with
  | [] => Ok (ctx, [])
  | (d, t) :: rest =>
      ' (ctx, t') <- mem_HMAC_Update hw leave ctx d t ;;
      ' (ctx, ts) <- hmac_calls hw leave ctx rest ;;
      Ok (ctx, t' :: ts)
  end.
Record hmac_left := mk_left {   (* scratch memory as left by Init, the Updates and Final *)
  l_init32 : list N; l_pad : bytes; l_khash : bytes; l_upd : list (list N); l_fin32 : list N; l_ihash : bytes }.
Definition hmac_session hw leave ctx K t pad khash calls digest t2 ihash
  : res (bytes * hmac_ctx * hmac_left) :=
  ' (ctx, t', pad, khash) <- mem_HMAC_Init hw leave ctx K t pad khash ;;
  ' (ctx, ts) <- hmac_calls hw leave ctx calls ;;
  ' (digest, ctx, t2, ihash) <- mem_HMAC_Final hw leave digest ctx t2 ihash ;;
  Ok (digest, ctx, mk_left t' pad khash ts t2 ihash).

(* ------------------------------------------------------------------ *)
(** * Proofs *)
Lemma blank_repeat n : blank n (repeat 0 n).
Proof.
  split; [apply repeat_length|]. apply Forall_forall. intros x Hx. apply repeat_spec in Hx. exact Hx.
Qed.
Lemma blank_sha_zero : blank_sha sha_zero.
Proof. repeat apply conj; try reflexivity; apply Forall_forall; intros x Hx; apply repeat_spec in Hx; exact Hx. Qed.
Lemma blank_hmac_zero : blank_hmac hmac_zero.
Proof. split; apply blank_sha_zero. Qed.

Section Machine.
  Context (hw : sha_hw) (leave : list N -> bytes -> list N -> list N).
  Hypothesis HL : in_bounds leave.

  Lemma sha_calls_ok calls : forall ctx m, sha_inv ctx m ->
    Forall (fun c => bytes_ok (fst c) /\ length (snd c) = 72%nat) calls ->
    exists ctx', sha_calls hw leave ctx calls = Ok (ctx', map (fun _ => repeat 0 72) calls) /\
      sha_inv ctx' (m ++ concat (map fst calls)).
  Proof.
    induction calls as [|[d t] rest IH]; intros ctx m Hi Hok.
    - exists ctx. simpl. rewrite app_nil_r. auto.
    - apply Forall_cons_iff in Hok. destruct Hok as [[Hd Ht] Hr]. cbn [fst snd] in Hd, Ht.
      cbn [sha_calls]. unfold mem_Update.
      destruct (mem_Update_inv hw leave HL ctx m d t Hi Hd Ht) as (c1 & t1 & -> & H1 & Ht1). cbn [bind].
      rewrite (memzero_tmp32 t1 Ht1). cbn [bind].
      destruct (IH c1 (m ++ d) H1 Hr) as (c2 & -> & H2). cbn [bind].
      exists c2. split; [reflexivity|]. cbn [map concat fst]. rewrite app_assoc. exact H2.
  Qed.

  Lemma hmac_calls_ok K calls : forall ctx m, hmac_inv ctx K m ->
    Forall (fun c => bytes_ok (fst c) /\ length (snd c) = 72%nat) calls ->
    exists ctx', hmac_calls hw leave ctx calls = Ok (ctx', map (fun _ => repeat 0 72) calls) /\
      hmac_inv ctx' K (m ++ concat (map fst calls)).
  Proof.
    induction calls as [|[d t] rest IH]; intros ctx m Hi Hok.
    - exists ctx. simpl. rewrite app_nil_r. auto.
    - apply Forall_cons_iff in Hok. destruct Hok as [[Hd Ht] Hr]. cbn [fst snd] in Hd, Ht.
      cbn [hmac_calls]. unfold mem_HMAC_Update.
      destruct (mem_HMAC_Update_correct hw leave HL ctx K m d t Hi Hd Ht) as (c1 & t1 & -> & H1 & Ht1). cbn [bind].
      rewrite (memzero_tmp32 t1 Ht1). cbn [bind].
      destruct (IH c1 (m ++ d) H1 Hr) as (c2 & -> & H2). cbn [bind].
      exists c2. split; [reflexivity|]. cbn [map concat fst]. rewrite app_assoc. exact H2.
  Qed.
End Machine.

(** Streaming SHA-256: the right digest, and afterwards the context and every
    scratch array of every call are blank. *)
Theorem C68_sha_stream : forall hw leave ctx calls digest t,
  in_bounds leave -> any_sha ctx -> (32 <= length digest)%nat -> length t = 72%nat ->
  Forall (fun c => bytes_ok (fst c) /\ length (snd c) = 72%nat) calls ->
  exists ctx' left,
    sha_session hw leave ctx calls digest t =
      Ok (sha256 (concat (map fst calls)) ++ skipn 32 digest, ctx', left) /\
    blank_sha ctx' /\ length left = S (length calls) /\ Forall (blank 72) left.
Proof.
  intros hw leave ctx calls digest t HL [_ Hb] Hd Ht Hc. unfold sha_session.
  destruct (sha_calls_ok hw leave HL calls (SHA256_Init ctx) [] (SHA256_Init_inv ctx Hb) Hc)
    as (c1 & -> & H1). cbn [bind]. rewrite app_nil_l in H1.
  unfold mem_Final.
  destruct (mem_Final_internal_correct hw leave HL digest c1 _ t H1 Ht Hd) as (c2 & t2 & -> & W2 & Ht2).
  cbn [bind]. rewrite (memzero_sha_ok c2 W2). cbn [bind]. rewrite (memzero_tmp32 t2 Ht2). cbn [bind].
  do 2 eexists. split; [reflexivity|]. split; [apply blank_sha_zero|]. split.
  - rewrite app_length, map_length. cbn [length]. lia.
  - apply Forall_app. split; [|constructor; [apply blank_repeat|constructor]].
    apply Forall_map, Forall_forall. intros. apply blank_repeat.
Qed.

(** One-shot SHA-256. *)
Theorem C68_sha_buf : forall hw leave m digest ctx t,
  in_bounds leave -> any_sha ctx -> (32 <= length digest)%nat -> length t = 72%nat -> bytes_ok m ->
  exists ctx' t', mem_Buf hw leave m digest ctx t = Ok (sha256 m ++ skipn 32 digest, ctx', t') /\
    blank_sha ctx' /\ blank 72 t'.
Proof.
  intros hw leave m digest ctx t HL [_ Hb] Hd Ht Hm. unfold mem_Buf.
  destruct (mem_Update_inv hw leave HL (SHA256_Init ctx) [] m t (SHA256_Init_inv ctx Hb) Hm Ht)
    as (c1 & t1 & -> & H1 & Ht1). cbn [bind]. rewrite app_nil_l in H1.
  destruct (mem_Final_internal_correct hw leave HL digest c1 m t1 H1 Ht1 Hd) as (c2 & t2 & -> & W2 & Ht2).
  cbn [bind]. rewrite (memzero_sha_ok c2 W2). cbn [bind]. rewrite (memzero_tmp32 t2 Ht2). cbn [bind].
  do 2 eexists. split; [reflexivity|]. split; [apply blank_sha_zero|apply blank_repeat].
Qed.

(** Streaming HMAC-SHA256. *)
Theorem C68_hmac_stream : forall hw leave ctx K t pad khash calls digest t2 ihash,
  in_bounds leave -> any_hmac ctx -> bytes_ok K -> length t = 72%nat -> length pad = 64%nat ->
  length khash = 32%nat -> (32 <= length digest)%nat -> length t2 = 72%nat -> length ihash = 32%nat ->
  Forall (fun c => bytes_ok (fst c) /\ length (snd c) = 72%nat) calls ->
  exists ctx' left,
    hmac_session hw leave ctx K t pad khash calls digest t2 ihash =
      Ok (hmac K (concat (map fst calls)) ++ skipn 32 digest, ctx', left) /\
    blank_hmac ctx' /\ blank 72 (l_init32 left) /\ blank 64 (l_pad left) /\ blank 32 (l_khash left) /\
    length (l_upd left) = length calls /\ Forall (blank 72) (l_upd left) /\
    blank 72 (l_fin32 left) /\ blank 32 (l_ihash left).
Proof.
  intros hw leave ctx K t pad khash calls digest t2 ihash HL [[_ Hi] [_ Ho]] HK Ht Hp Hk Hd Ht2 Hh Hc.
  unfold hmac_session, mem_HMAC_Init.
  destruct (mem_HMAC_Init_correct hw leave HL ctx K t pad khash Hi Ho HK Ht Hp Hk)
    as (c1 & t1 & p1 & k1 & -> & H1 & L1 & L2 & L3). cbn [bind].
  rewrite (memzero_tmp32 t1 L1). cbn [bind]. rewrite (memzero_exact k1 32 L3). cbn [bind].
  rewrite (memzero_exact p1 64 L2). cbn [bind].
  destruct (hmac_calls_ok hw leave HL K calls c1 [] H1 Hc) as (c2 & -> & H2). cbn [bind].
  rewrite app_nil_l in H2. unfold mem_HMAC_Final.
  destruct (mem_HMAC_Final_internal_correct hw leave HL digest c2 K _ t2 ihash H2 Ht2 Hd)
    as (c3 & t3 & h3 & -> & W3 & L4 & L5); [lia|].
  cbn [bind]. rewrite (memzero_hmac_ok c3 W3). cbn [bind]. rewrite (memzero_tmp32 t3 L4). cbn [bind].
  rewrite (memzero_exact h3 32) by lia. cbn [bind].
  do 2 eexists. split; [reflexivity|]. split; [apply blank_hmac_zero|].
  cbn [l_init32 l_pad l_khash l_upd l_fin32 l_ihash].
  split; [apply blank_repeat|]. split; [apply blank_repeat|]. split; [apply blank_repeat|].
  split; [apply map_length|]. split; [|split; apply blank_repeat].
  apply Forall_map, Forall_forall. intros. apply blank_repeat.
Qed.

(** One-shot HMAC-SHA256. *)
Theorem C68_hmac_buf : forall hw leave K m digest ctx t t8,
  in_bounds leave -> any_hmac ctx -> bytes_ok K -> bytes_ok m -> (32 <= length digest)%nat ->
  length t = 72%nat -> length t8 = 96%nat ->
  exists ctx' t' t8',
    mem_HMAC_Buf hw leave K m digest ctx t t8 = Ok (hmac K m ++ skipn 32 digest, ctx', t', t8') /\
    blank_hmac ctx' /\ blank 72 t' /\ blank 96 t8'.
Proof.
  intros hw leave K m digest ctx t t8 HL [[_ Hi] [_ Ho]] HK Hm Hd Ht H8. unfold mem_HMAC_Buf.
  destruct (init_in_tmp8_correct hw leave HL ctx K t t8 Hi Ho HK Ht H8) as (c1 & t1 & t81 & -> & H1 & L1 & L2).
  cbn [bind].
  destruct (mem_HMAC_Update_correct hw leave HL c1 K [] m t1 H1 Hm L1) as (c2 & t2 & -> & H2 & L3).
  cbn [bind]. rewrite app_nil_l in H2.
  destruct (mem_HMAC_Final_internal_correct hw leave HL digest c2 K m t2 t81 H2 L3 Hd)
    as (c3 & t3 & h3 & -> & W3 & L4 & L5); [lia|].
  cbn [bind]. rewrite (memzero_hmac_ok c3 W3). cbn [bind]. rewrite (memzero_tmp32 t3 L4). cbn [bind].
  rewrite (memzero_exact h3 96) by lia. cbn [bind].
  do 3 eexists. split; [reflexivity|]. split; [apply blank_hmac_zero|]. split; apply blank_repeat.
Qed.

(** PBKDF2: the right key in the caller's buffer, nothing beyond it touched,
    and on return every automatic variable is blank except the 4-byte block
    counter, which holds the number of the last block (or, when no output was
    asked for, what it held before). *)
Theorem C68_pbkdf2 : forall hw leave P S c buf dkLen s,
  in_bounds leave -> any_stack s -> bytes_ok P -> bytes_ok S ->
  dkLen <= 32 * 0xffffffff -> (N.to_nat dkLen <= length buf)%nat ->
  exists s',
    mem_PBKDF2 hw leave P S c buf dkLen s =
      Ok (pbkdf2 P S c (N.to_nat dkLen) ++ skipn (N.to_nat dkLen) buf, s') /\
    blank_hmac (s_Phctx s') /\ blank_hmac (s_PShctx s') /\ blank_hmac (s_hctx s') /\
    blank 72 (s_tmp32 s') /\ blank 96 (s_tmp8 s') /\ blank 32 (s_U s') /\ blank 32 (s_T s') /\
    s_ivec s' = (if dkLen =? 0 then s_ivec s else be_bytes 4 ((dkLen + 31) / 32)).
Proof.
  intros hw leave P S c buf dkLen s HL (A1 & A2 & A3 & A4 & A5 & A6 & A7 & A8) HP HS Hdk Hb.
  unfold mem_PBKDF2.
  destruct (N.leb_spec dkLen (32 * 0xffffffff)); [|lia]. cbn [assert_ bind].
  destruct (init_in_tmp8_correct hw leave HL (s_Phctx s) P (s_tmp32 s) (s_tmp8 s)
    (proj2 (proj1 A1)) (proj2 (proj2 A1)) HP A4 A5) as (c1 & t1 & t81 & -> & H1 & L1 & L2).
  cbn [bind].
  destruct (mem_HMAC_Update_correct hw leave HL c1 P [] S t1 H1 HS L1) as (c2 & t2 & -> & H2 & L3).
  cbn [bind]. rewrite app_nil_l in H2.
  edestruct (mem_pb_outer_correct hw leave HL (Datatypes.S (N.to_nat (dkLen / 32))) 0
    (mk_pb c1 c2 (s_hctx s) t2 t81 (s_ivec s) (s_U s) (s_T s)) P S c buf dkLen (s_ivec s))
    as (s1 & -> & Z & Hc).
  - exact H1.
  - exact H2.
  - repeat apply conj; cbn [s_Phctx s_PShctx s_hctx s_tmp32 s_tmp8 s_ivec s_U s_T]; auto;
      try (eapply sha_inv_wf; apply H1); try (eapply sha_inv_wf; apply H2); apply A3.
  - exact Hdk.
  - exact Hb.
  - lia.
  - pose proof (N.div_mod' dkLen 32). pose proof (N.mod_lt dkLen 32 ltac:(discriminate)). lia.
  - simpl. rewrite firstn_nil. reflexivity.
  - reflexivity.
  - destruct Z as (S1 & S2 & S3 & S4 & S5 & S6 & S7 & S8). cbn [bind].
    rewrite (memzero_hmac_ok _ S1). cbn [bind]. rewrite (memzero_hmac_ok _ S2). cbn [bind].
    rewrite (memzero_hmac_ok _ S3). cbn [bind]. rewrite (memzero_tmp32 _ S4). cbn [bind].
    rewrite (memzero_exact _ 96 S5). cbn [bind]. rewrite (memzero_exact _ 32 S7). cbn [bind].
    rewrite (memzero_exact _ 32 S8). cbn [bind].
    eexists. split; [reflexivity|]. cbn [s_Phctx s_PShctx s_hctx s_tmp32 s_tmp8 s_ivec s_U s_T].
    repeat (split; [apply blank_hmac_zero|]). repeat (split; [apply blank_repeat|]).
    unfold counter_or in Hc.
    assert (N.of_nat ((N.to_nat dkLen + 31) / 32) = (dkLen + 31) / 32) as Eq.
    { rewrite Nat2N.inj_div. f_equal. lia. }
    destruct (N.eqb_spec dkLen 0) as [->|Hn].
    + exact Hc.
    + rewrite <- Eq. rewrite Hc.
      destruct ((N.to_nat dkLen + 31) / 32)%nat eqn:E; [|reflexivity].
      exfalso. apply Nat.div_small_iff in E; lia.
Qed.

(** So nothing can be learnt from the memory PBKDF2 leaves behind: for two
    passphrases, salts and iteration counts and the same output length it is
    the same memory. *)
Theorem C68_no_trace : forall hw leave P1 S1 c1 P2 S2 c2 buf dkLen s out1 s1 out2 s2,
  in_bounds leave -> any_stack s -> bytes_ok P1 -> bytes_ok S1 -> bytes_ok P2 -> bytes_ok S2 ->
  dkLen <= 32 * 0xffffffff -> (N.to_nat dkLen <= length buf)%nat ->
  mem_PBKDF2 hw leave P1 S1 c1 buf dkLen s = Ok (out1, s1) ->
  mem_PBKDF2 hw leave P2 S2 c2 buf dkLen s = Ok (out2, s2) ->
  s1 = s2.
Proof.
  intros hw leave P1 S1 c1 P2 S2 c2 buf dkLen s out1 s1 out2 s2 HL Hs HP1 HS1 HP2 HS2 Hdk Hb E1 E2.
  assert (forall n l l', blank n l -> blank n l' -> l = l') as B1.
  { intros n l l' [L F] [L' F']. revert l l' L F L' F'. induction n as [|n IH]; intros l l' L F L' F'.
    - destruct l, l'; try discriminate. reflexivity.
    - destruct l as [|x l], l' as [|y l']; try discriminate.
      apply Forall_cons_iff in F. apply Forall_cons_iff in F'. destruct F as [-> F], F' as [-> F'].
      f_equal. apply IH; auto; simpl in *; lia. }
  assert (forall c c', blank_sha c -> blank_sha c' -> c = c') as B2.
  { intros [a n b] [a' n' b'] (X & Y & Z) (X' & Y' & Z'). cbn [c_state c_count c_buf] in *.
    rewrite Y, Y', (B1 _ _ _ X X'), (B1 _ _ _ Z Z'). reflexivity. }
  assert (forall c c', blank_hmac c -> blank_hmac c' -> c = c') as B3.
  { intros [i o] [i' o'] (X & Y) (X' & Y'). cbn [h_ictx h_octx] in *.
    rewrite (B2 _ _ X X'), (B2 _ _ Y Y'). reflexivity. }
  destruct (C68_pbkdf2 hw leave P1 S1 c1 buf dkLen s HL Hs HP1 HS1 Hdk Hb)
    as (r1 & Q1 & A1 & A2 & A3 & A4 & A5 & A6 & A7 & A8).
  destruct (C68_pbkdf2 hw leave P2 S2 c2 buf dkLen s HL Hs HP2 HS2 Hdk Hb)
    as (r2 & Q2 & D1 & D2 & D3 & D4 & D5 & D6 & D7 & D8).
  rewrite E1 in Q1. injection Q1 as _ <-. rewrite E2 in Q2. injection Q2 as _ <-.
  destruct s1 as [x1 x2 x3 x4 x5 x6 x7 x8], s2 as [y1 y2 y3 y4 y5 y6 y7 y8].
  cbn [s_Phctx s_PShctx s_hctx s_tmp32 s_tmp8 s_ivec s_U s_T] in *.
  f_equal; eauto. rewrite A8, D8. reflexivity.
Qed.

(** Hypotheses met: scratch memory full of ones and a transform that leaves the
    block it was given (the secret) in the scratch words. *)
Definition leaky (st : list N) (b : bytes) (t : list N) : list N := firstn 72 (b ++ repeat 1 72).
Definition dirty_sha : sha_ctx := mk_sha (repeat 1 8) 1 (repeat 1 64).
Definition dirty_hmac : hmac_ctx := mk_hmac dirty_sha dirty_sha.
Definition dirty_stack : pb_stack :=
  mk_pb dirty_hmac dirty_hmac dirty_hmac (repeat 1 72) (repeat 1 96) (repeat 1 4) (repeat 1 32) (repeat 1 32).
Example C68_hyps :
  in_bounds leaky /\ leaky [] (repeat 115 64) [] <> leaky [] (repeat 116 64) [] /\
  any_stack dirty_stack /\ ~ blank 72 (s_tmp32 dirty_stack) /\
  exists s', mem_PBKDF2 HW_X86_SSE2 leaky [112;119] [115] 3 (repeat 7 50) 40 dirty_stack =
    Ok (pbkdf2 [112;119] [115] 3 40 ++ repeat 7 10, s') /\ blank 72 (s_tmp32 s') /\ blank 32 (s_U s') /\
    s_ivec s' = [0;0;0;2].
Proof.
  assert (in_bounds leaky) as HB.
  { intros st b t _. unfold leaky. rewrite firstn_length, app_length, repeat_length. lia. }
  assert (any_stack dirty_stack) as HA by (repeat apply conj; reflexivity).
  split; [exact HB|]. split; [discriminate|]. split; [exact HA|]. split.
  - intros [_ F]. inversion F. discriminate.
  - destruct (C68_pbkdf2 HW_X86_SSE2 leaky [112;119] [115] 3 (repeat 7 50) 40 dirty_stack HB HA)
      as (s' & E & _ & _ & _ & B4 & _ & B6 & _ & B8).
    + repeat constructor.
    + repeat constructor.
    + discriminate.
    + change (40 <= 50)%nat. lia.
    + exists s'. split; [exact E|]. split; [exact B4|]. split; [exact B6|]. exact B8.
Qed.

Definition Prop_sha256_mem_all :=
  (C68_sha_stream, C68_sha_buf, C68_hmac_stream, C68_hmac_buf, C68_pbkdf2, C68_no_trace).
Print Assumptions Prop_sha256_mem_all.
