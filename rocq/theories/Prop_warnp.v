(** Properties C66 (the warning functions, over every history of calls) and C67
    (asprintf and the strings humansize returns). *)
From Coq Require Import String.
From Verif Require Import Base SpecAscii SpecText M_print_error M_warnp M_humansize P_scrypt_ref Prop_getopt Prop_text.
Local Open Scope list_scope.
Local Open Scope N_scope.
Local Notation length := List.length.

(** ** Specification: what a history of calls means.  The history is the list of
    the calls made so far, the latest first. *)
(** The last component of a path. *)
Definition is_basename (p b : bytes) : Prop := ~ In 47 b /\ (p = b \/ exists d, p = d ++ 47 :: b).
(** The program name: that of the latest warnp_setprogname, if memory was there
    for it. *)
Fixpoint named (h : list wcall) : option bytes :=
  match h with
  | [] => None
  | C_setprogname p mem :: _ => if mem then Some p else None
  | _ :: h => named h
  end.
(** Does the output go to syslog, and with which priority (LOG_WARNING is 4)? *)
Fixpoint to_syslog (h : list wcall) : bool :=
  match h with [] => false | C_syslog e :: _ => e | _ :: h => to_syslog h end.
Fixpoint priority (h : list wcall) : Z :=
  match h with [] => 4%Z | C_priority p :: _ => p | _ :: h => priority h end.
(** errno: warn and warnx leave it alone, warnp and warn0 clear it. *)
Fixpoint errno_of (e0 : N) (h : list wcall) : N :=
  match h with
  | [] => e0
  | C_errno e :: _ => e
  | C_warnp _ _ :: _ | C_warn0 _ _ :: _ => 0
  | _ :: h => errno_of e0 h
  end.
(** The message of a call: the text and, for warn (and warnp with errno set),
    the reason. *)
Definition message_of (e : N) (c : wcall) : option (option bytes * option N) :=
  match c with
  | C_warn f _ => Some (f, Some e)
  | C_warnx f _ => Some (f, None)
  | C_warnp f _ => Some (f, if e =? 0 then None else Some e)
  | C_warn0 f _ => Some (f, None)
  | _ => None
  end.
Section Spec.
  Context (strerror : N -> bytes).
  Definition reason (r : option N) : list bytes := match r with Some e => [strerror e] | None => [] end.
  (** "a: b: c" *)
  Fixpoint joined (l : list bytes) : bytes :=
    match l with [] => [] | [x] => x | x :: l => x ++ str ": " ++ joined l end.
  Definition given (f : option bytes) : list bytes := match f with Some t => [t] | None => [] end.
  (** What a call must put out, given the history before it. *)
  Inductive puts (e0 : N) (h : list wcall) : wcall -> list out -> Prop :=
  | puts_none c : message_of (errno_of e0 h) c = None -> (forall e, c <> C_syslog e) -> puts e0 h c []
  | puts_close : to_syslog h = true -> puts e0 h (C_syslog false) [O_closelog]
  | puts_switch e : to_syslog h = false \/ e = true -> puts e0 h (C_syslog e) []
  (* standard error: the whole message, after the program name *)
  | puts_stderr c f r n : message_of (errno_of e0 h) c = Some (f, r) -> to_syslog h = false ->
      (match named h with Some p => is_basename p n | None => n = str "(unknown)" end) ->
      puts e0 h c [O_stderr (joined (n :: given f ++ reason r) ++ [newline])]
  (* syslog: the text cut at 4095 characters; syslog adds the name *)
  | puts_syslog c f r : message_of (errno_of e0 h) c = Some (f, r) -> to_syslog h = true ->
      puts e0 h c [O_syslog (priority h) (joined (given (match f with Some t => Some (firstn 4095 t) | None => None end) ++ reason r) ++ [newline])].
  Inductive puts_all (e0 : N) : list wcall -> list wcall -> list out -> Prop :=
  | pa_nil h : puts_all e0 h [] []
  | pa_cons h c cs o os : puts e0 h c o -> puts_all e0 (c :: h) cs os -> puts_all e0 h (c :: cs) (o ++ os).
End Spec.
(** Texts and program names are C strings. *)
Definition call_text (c : wcall) : Prop :=
  match c with
  | C_warn (Some t) _ | C_warnx (Some t) _ | C_warnp (Some t) _ | C_warn0 (Some t) _ => cstring t
  | C_setprogname p _ => cstring p
  | _ => True
  end.

(** ** Proofs *)
Lemma last_segment_spec p : forall d0 q, d0 = q \/ (exists d, q = d ++ 47 :: d0) -> is_basename (q ++ p) (last_segment (d0 ++ p) p) \/ In 47 d0.
Proof.
  induction p as [|c p IH]; intros d0 q HQ; cbn [last_segment].
  - rewrite !app_nil_r. destruct (in_dec N.eq_dec 47 d0) as [H|H]; [right; exact H|]. left. split; [exact H|]. destruct HQ as [->|HQ]; [left; reflexivity|right; exact HQ].
  - destruct (N.eqb_spec c 47) as [->|HC].
    + left. destruct (IH [] (q ++ [47])) as [H|[]].
      * right. exists q. reflexivity.
      * rewrite <- app_assoc in H. cbn [app] in H. exact H.
    + replace (d0 ++ c :: p) with ((d0 ++ [c]) ++ p) by (rewrite <- app_assoc; reflexivity).
      replace (q ++ c :: p) with ((q ++ [c]) ++ p) by (rewrite <- app_assoc; reflexivity).
      destruct (IH (d0 ++ [c]) (q ++ [c])) as [H|H].
      * destruct HQ as [->|(d & ->)]; [left; reflexivity|right; exists d; rewrite <- app_assoc; reflexivity].
      * left. exact H.
      * right. apply in_app_or in H. destruct H as [H|[H|[]]]; [exact H|congruence].
Qed.
Lemma last_segment_basename p : is_basename p (last_segment p p).
Proof. destruct (last_segment_spec p [] [] (or_introl eq_refl)) as [H|[]]. exact H. Qed.
Lemma cstr_spec s t : cstring s -> cstr (s ++ 0 :: t) = Ok s.
Proof.
  induction s as [|c s IH]; intros HC; [reflexivity|]. cbn [app cstr]. destruct (N.eqb_spec c 0) as [->|_]; [contradiction HC; left; reflexivity|].
  rewrite IH by (intros H; apply HC; right; exact H). reflexivity.
Qed.
Lemma vsnprintf_spec text buf n : (n < length buf)%nat -> exists rest, vsnprintf text buf (S n) = Ok (firstn n text ++ 0 :: rest).
Proof.
  intros H. cbn [vsnprintf]. assert (length (firstn n text ++ [0%N]) <= length buf)%nat as HL by (rewrite app_length, firstn_length; cbn [length]; lia).
  rewrite wr_ok by (cbn [plus]; exact HL). exists (skipn (length (firstn n text ++ [0])) buf). unfold upd. cbn [firstn app plus]. rewrite <- app_assoc. reflexivity.
Qed.
Lemma firstn_cstring n s : cstring s -> cstring (firstn n s).
Proof. intros H HI. apply H. rewrite <- (firstn_skipn n s). apply in_or_app. left. exact HI. Qed.

  Lemma fresh_not_in l : ~ In (fresh_block l) l.
  Proof.
    intros H. unfold fresh_block in H. pose proof (proj1 (list_max_le l (list_max l)) (Nat.le_refl _)) as HF. rewrite Forall_forall in HF. specialize (HF _ H). lia.
  Qed.
  Lemma wfree_own i b l : ~ In i l -> wfree (i :: l) (Some (i, b)) = Ok l.
  Proof.
    intros H. cbn [wfree existsb]. rewrite Nat.eqb_refl. cbn [orb remove]. destruct (Nat.eq_dec i i) as [_|C]; [|congruence]. f_equal. apply notin_remove. exact H.
  Qed.

Section Run.
  Context (strerror : N -> bytes) (junk : nat -> N) (live0 : list nat) (e0 : N).
  (** The state after a history. *)
  Definition winv (h : list wcall) (st : wstate) : Prop :=
    wt_syslog st = to_syslog h /\ wt_prio st = priority h /\ wt_errno st = errno_of e0 h /\
    match named h with
    | Some p => wt_init st = true /\ exists i, wt_name st = Some (i, last_segment p p) /\ wt_live st = i :: live0 /\ ~ In i live0
    | None => wt_name st = None /\ wt_live st = live0
    end.
  Lemma winv_free h st : winv h st -> wfree (wt_live st) (wt_name st) = Ok live0.
  Proof.
    intros (_ & _ & _ & HN). destruct (named h) as [p|].
    - destruct HN as (_ & i & -> & -> & HI). apply wfree_own. exact HI.
    - destruct HN as [-> ->]. reflexivity.
  Qed.
  Lemma wemit_spec suffix fmt clob h st : winv h st -> match fmt with Some t => cstring t | None => True end ->
    exists o, wemit strerror junk suffix fmt clob st = Ok (st, [o]) /\
      forall c, message_of (errno_of e0 h) c = Some (fmt, if suffix then Some (errno_of e0 h) else None) -> puts strerror e0 h c [o].
  Proof.
    intros HI HT. destruct HI as (HS & HP & HE & HN).
    assert (set_errno (wt_errno st) (set_errno clob st) = st) as HST by (destruct st; reflexivity).
    unfold wemit. rewrite HST, HS. destruct (to_syslog h) eqn:ES; cbn [negb].
    - destruct fmt as [t|].
      + destruct (vsnprintf_spec t (msgbuf0 junk) MAX_LINE) as (rest & E).
        { unfold msgbuf0. rewrite map_length, seq_length. rewrite Nat.add_1_r. apply Nat.lt_succ_diag_r. }
        rewrite Nat.add_1_r, E, bind_Ok, (cstr_spec _ rest (firstn_cstring _ t HT)), bind_Ok, bind_Ok.
        eexists. split; [reflexivity|]. intros c HM. pose proof (puts_syslog strerror e0 h c _ _ HM ES) as HQ. rewrite HP, HE.
        destruct suffix; cbn [given reason app joined] in HQ; [|cbn [app]; exact HQ]. rewrite <- !app_assoc in HQ. rewrite <- !app_assoc. exact HQ.
      + rewrite bind_Ok. eexists. split; [reflexivity|]. intros c HM. pose proof (puts_syslog strerror e0 h c _ _ HM ES) as HQ. rewrite HP, HE.
        destruct suffix; cbn [given reason app joined] in HQ; [exact HQ|cbn [app]; exact HQ].
    - rewrite bind_Ok. eexists. split; [reflexivity|]. intros c HM.
      assert (match named h with Some p => is_basename p (wname st) | None => wname st = str "(unknown)" end) as HNM.
      { unfold wname. destruct (named h) as [p|]; [destruct HN as (_ & i & -> & _); apply last_segment_basename|destruct HN as [-> _]; reflexivity]. }
      pose proof (puts_stderr strerror e0 h c _ _ _ HM ES HNM) as HQ. rewrite HE.
      destruct fmt as [t|], suffix; cbn [given reason app joined] in HQ; rewrite <- ?app_assoc in HQ; rewrite <- ?app_assoc; rewrite ?app_nil_r, ?app_nil_l; exact HQ.
  Qed.
  Lemma winv_step h c st : winv h st -> call_text c -> exists st' o, wcall_do strerror junk c st = Ok (st', o) /\ puts strerror e0 h c o /\ winv (c :: h) st'.
  Proof.
    intros HI HT. pose proof HI as (HS & HP & HE & HN). destruct c as [p mem|e|p|f k|f k|f k|f k|e]; cbn [wcall_do call_text] in *.
    - unfold wsetprogname. rewrite (winv_free h st HI), bind_Ok. destruct mem.
      + eexists. exists []. split; [reflexivity|]. split; [apply puts_none; [reflexivity|discriminate]|].
        unfold winv. cbn [wt_syslog wt_prio wt_errno wt_init wt_name wt_live named to_syslog priority errno_of]. do 3 (split; [assumption|]).
        split; [reflexivity|]. exists (fresh_block live0). split; [reflexivity|]. split; [reflexivity|]. apply fresh_not_in.
      + eexists. exists []. split; [reflexivity|]. split; [apply puts_none; [reflexivity|discriminate]|].
        unfold winv. cbn [wt_syslog wt_prio wt_errno wt_init wt_name wt_live named to_syslog priority errno_of]. do 3 (split; [assumption|]). split; reflexivity.
    - unfold wsyslog. rewrite HS. eexists. eexists. split; [reflexivity|]. split.
      + destruct (to_syslog h) eqn:ES, e; cbn [andb negb]; [apply puts_switch; right; reflexivity|apply puts_close; exact ES|apply puts_switch; left; exact ES|apply puts_switch; left; exact ES].
      + unfold winv. cbn [wt_syslog wt_prio wt_errno wt_init wt_name wt_live named to_syslog priority errno_of]. repeat (split; [first [reflexivity|assumption]|]). exact HN.
    - eexists. exists []. split; [reflexivity|]. split; [apply puts_none; [reflexivity|discriminate]|].
      unfold winv, wpriority. cbn [wt_syslog wt_prio wt_errno wt_init wt_name wt_live named to_syslog priority errno_of]. repeat (split; [first [reflexivity|assumption]|]). exact HN.
    - destruct (wemit_spec true f k h st HI HT) as (o & E & HO). exists st, [o]. split; [exact E|]. split; [apply HO; reflexivity|exact HI].
    - destruct (wemit_spec false f k h st HI HT) as (o & E & HO). exists st, [o]. split; [exact E|]. split; [apply HO; reflexivity|exact HI].
    - unfold wwarnp. rewrite HE. destruct (N.eqb_spec (errno_of e0 h) 0) as [E0|E0]; cbn [negb].
      + destruct (wemit_spec false f k h st HI HT) as (o & E & HO). exists st, [o]. split; [exact E|]. split; [apply HO; cbn [message_of]; rewrite E0; reflexivity|].
        unfold winv. cbn [named to_syslog priority errno_of]. rewrite E0 in HE. repeat (split; [assumption|]). exact HN.
      + destruct (wemit_spec true f k h st HI HT) as (o & E & HO). unfold wwarn. rewrite E, bind_Ok. exists (set_errno 0 st), [o]. split; [reflexivity|].
        split; [apply HO; cbn [message_of]; apply N.eqb_neq in E0; rewrite E0; reflexivity|].
        unfold winv, set_errno. cbn [wt_syslog wt_prio wt_errno wt_init wt_name wt_live named to_syslog priority errno_of]. repeat (split; [first [reflexivity|assumption]|]). exact HN.
    - destruct (wemit_spec false f k h st HI HT) as (o & E & HO). unfold wwarn0, wwarnx. rewrite E, bind_Ok. exists (set_errno 0 st), [o]. split; [reflexivity|].
      split; [apply HO; reflexivity|].
      unfold winv, set_errno. cbn [wt_syslog wt_prio wt_errno wt_init wt_name wt_live named to_syslog priority errno_of]. repeat (split; [first [reflexivity|assumption]|]). exact HN.
    - eexists. exists []. split; [reflexivity|]. split; [apply puts_none; [reflexivity|discriminate]|].
      unfold winv, set_errno. cbn [wt_syslog wt_prio wt_errno wt_init wt_name wt_live named to_syslog priority errno_of]. repeat (split; [first [reflexivity|assumption]|]). exact HN.
  Qed.
  Lemma wrun_spec cs : forall h st, winv h st -> Forall call_text cs ->
    exists st' os, wrun strerror junk cs st = Ok (st', os) /\ puts_all strerror e0 h cs os /\ winv (rev cs ++ h) st'.
  Proof.
    induction cs as [|c cs IH]; intros h st HI HT; cbn [wrun].
    - exists st, []. split; [reflexivity|]. split; [constructor|exact HI].
    - inversion HT as [|? ? H1 H2]; subst. destruct (winv_step h c st HI H1) as (st1 & o & E & HO & HI1). rewrite E, bind_Ok.
      destruct (IH (c :: h) st1 HI1 H2) as (st2 & os & E2 & HO2 & HI2). rewrite E2, bind_Ok. exists st2, (o ++ os). split; [reflexivity|].
      split; [constructor; assumption|]. cbn [rev]. rewrite <- app_assoc. exact HI2.
  Qed.
End Run.

(** ** C66 *)
(** Every history of calls runs without undefined behaviour (no overrun of the
    4096-byte buffer, no use of a freed name); each call puts out exactly what
    the specification says, to one destination; errno survives every call that
    does not clear it, whatever the output functions do to it; and after the
    exit handler no memory is left over. *)
Theorem C66_messages strerror junk live e0 cs : Forall call_text cs ->
  exists st os, wrun strerror junk cs (wst0 live e0) = Ok (st, os) /\
    puts_all strerror e0 [] cs os /\ wt_errno st = errno_of e0 (rev cs) /\
    exists st' o, wexit st = Ok (st', o) /\ wt_live st' = live.
Proof.
  intros HT. destruct (wrun_spec strerror junk live e0 cs [] (wst0 live e0)) as (st & os & E & HO & HI); [|exact HT|].
  - repeat split.
  - rewrite app_nil_r in HI. exists st, os. split; [exact E|]. split; [exact HO|]. split; [apply HI|].
    unfold wexit. destruct (wt_init st) eqn:EI.
    + rewrite (winv_free live e0 _ st HI), bind_Ok. eexists. eexists. split; reflexivity.
    + exists st, []. split; [reflexivity|]. destruct HI as (_ & _ & _ & HN). destruct (named (rev cs)) as [p|]; [destruct HN as [HN _]; congruence|apply HN].
Qed.
(** The specification leaves no choice. *)
Lemma basename_unique p b b' : is_basename p b -> is_basename p b' -> b = b'.
Proof.
  assert (forall d d' x y : list N, ~ In 47 x -> ~ In 47 y -> d ++ 47 :: x = d' ++ 47 :: y -> x = y) as HX.
  { induction d as [|c d IH]; intros [|c' d'] x y Hx Hy E; cbn [app] in E.
    - injection E as E. exact E.
    - injection E as <- E. exfalso. apply Hx. rewrite E. apply in_or_app. right. left. reflexivity.
    - injection E as -> E. exfalso. apply Hy. rewrite <- E. apply in_or_app. right. left. reflexivity.
    - injection E as -> E. apply (IH d' x y); assumption. }
  intros [H1 H2] [H3 H4]. destruct H2 as [->|(d & ->)], H4 as [E|(d' & E)].
  - exact E.
  - exfalso. apply H1. rewrite E. apply in_or_app. right. left. reflexivity.
  - exfalso. apply H3. rewrite <- E. apply in_or_app. right. left. reflexivity.
  - apply (HX d d' b b'); assumption.
Qed.
Lemma puts_unique strerror e0 h c o o' : puts strerror e0 h c o -> puts strerror e0 h c o' -> o = o'.
Proof.
  intros H H'. inversion H; subst; inversion H'; subst; try reflexivity; try congruence;
    try (match goal with H : _ \/ _ |- _ => destruct H; congruence end);
    try (exfalso; match goal with H : forall e, C_syslog ?x <> C_syslog e |- _ => apply (H x); reflexivity end);
    try (match goal with H : message_of _ (C_syslog _) = Some _ |- _ => discriminate H end).
  2:{ assert (f0 = f) as -> by congruence. assert (r0 = r) as -> by congruence. reflexivity. }
  match goal with |- [O_stderr (joined (?x :: _) ++ _)] = [O_stderr (joined (?y :: _) ++ _)] => assert (x = y) as ->; [|congruence] end.
  destruct (named h) as [p|]; [eapply basename_unique; eassumption|congruence].
Qed.
Theorem C66_determined strerror e0 cs : forall h o o', puts_all strerror e0 h cs o -> puts_all strerror e0 h cs o' -> o = o'.
Proof.
  induction cs as [|c cs IH]; intros h o o' H H'; inversion H; subst; inversion H'; subst; [reflexivity|].
  f_equal; [eapply puts_unique; eassumption|eapply IH; eassumption].
Qed.

(** ** C67 *)
(** asprintf: a new block with exactly the text and its NUL, or -1 and the heap
    as it was. *)
Theorem C67_asprintf junk intmax fail1 mem fail2 text live : 
  exists live' r, asprintf junk intmax fail1 mem fail2 text live = Ok (live', r) /\
    match r with
    | Some (len, (i, buf)) => live' = i :: live /\ ~ In i live /\ buf = text ++ [0] /\ len = Z.of_nat (length text) /\ (0 <= len <= Z.of_N intmax)%Z
    | None => live' = live
    end /\
    (fail1 = false -> mem = true -> fail2 = false -> N.of_nat (length text) <= intmax -> r <> None).
Proof.
  unfold asprintf. destruct (N.ltb_spec intmax (N.of_nat (length text))) as [HL|HL].
  - rewrite orb_true_r. exists live, None. split; [reflexivity|]. split; [reflexivity|]. intros. lia.
  - rewrite !orb_false_r. destruct fail1; [exists live, None; repeat split; discriminate|]. destruct mem; cbn [negb]; [|exists live, None; repeat split; discriminate].
    destruct (vsnprintf_spec text (map junk (seq 0 (S (length text)))) (length text)) as (rest & E).
    { rewrite map_length, seq_length. lia. }
    assert (firstn (length text) text ++ 0 :: rest = text ++ [0]) as EB.
    { assert (length (firstn (length text) text ++ 0 :: rest) = S (length text)) as HLen.
      { cbn [vsnprintf] in E. apply wr_Ok_inv in E. destruct E as [HB E]. rewrite E. rewrite upd_length by exact HB. rewrite map_length, seq_length. reflexivity. }
      rewrite firstn_all in *. rewrite app_length in HLen. cbn [length] in HLen. destruct rest as [|x rest]; [reflexivity|cbn [length] in HLen; lia]. }
    rewrite EB in E. rewrite E, bind_Ok. destruct fail2.
    + rewrite (wfree_own (fresh_block live) (text ++ [0]) live (fresh_not_in live)). rewrite bind_Ok. exists live, None. repeat split; discriminate.
    + eexists. eexists. split; [reflexivity|]. cbv iota. split; [|intros; discriminate]. split; [reflexivity|]. split; [apply fresh_not_in|].
      split; [reflexivity|]. split; [reflexivity|]. lia.
Qed.
(* humansize.c:15-58 humansize with the memory it returns: the format strings
   (lines 27, 44-48) give the text of M_humansize.humansize, 51-58 *)
Definition humansize_c (junk : nat -> N) (fail1 mem fail2 : bool) (size : N) (live : list nat) : res (list nat * option (nat * bytes)) :=
  t <- humansize true size ;;
  match t with
  | Some text =>
      ' (live, r) <- asprintf junk 2147483647 fail1 mem fail2 text live ;;
      Ok (live, match r with Some (_, b) => Some b | None => None end)
  | None => UB
  end.
Example C66_hyps : exists st, wrun (fun _ => str "No such file") (fun _ => 7)
    [C_setprogname (str "/usr/bin/scrypt") true; C_errno 2; C_warn (Some (str "x")) 9; C_warnp (Some (str "fopen(y)")) 5; C_warnp (Some (str "z")) 1;
     C_setprogname (str "w") false; C_warn0 None 3] (wst0 [3%nat] 0) = Ok (st,
    [O_stderr (str "scrypt: x: No such file" ++ [newline]); O_stderr (str "scrypt: fopen(y): No such file" ++ [newline]); O_stderr (str "scrypt: z" ++ [newline]);
     O_stderr (str "(unknown)" ++ [newline])]).
Proof. eexists. vm_compute. reflexivity. Qed.

Lemma dec_fuel_length f : forall n, (length (dec_fuel f n) <= f)%nat.
Proof.
  induction f as [|f IH]; intros n; cbn [dec_fuel]; [cbn; lia|]. destruct (n <? 10); [cbn [length]; lia|]. rewrite app_length. cbn [length]. specialize (IH (n / 10)). lia.
Qed.
Lemma print_dec_short n : n < 2 ^ 64 -> (length (print_dec n) <= 64)%nat.
Proof.
  intros H. unfold print_dec. pose proof (dec_fuel_length (S (N.to_nat (N.log2 n))) n) as HL.
  assert (N.log2 n < 64) as H2; [|lia]. destruct (N.eq_dec n 0) as [->|HN]; [cbn; lia|]. apply N.log2_lt_pow2; [lia|exact H].
Qed.
Lemma humansize_short size text : size < 2 ^ 64 -> humansize true size = Ok (Some text) -> N.of_nat (length text) <= 2147483647.
Proof.
  intros HS. unfold humansize. destruct (N.ltb_spec size 1000) as [H|H].
  - rewrite bind_Ok. intros E. injection E as <-. rewrite app_length. cbn [length]. pose proof (print_dec_short size HS). lia.
  - destruct (hs_loop 64 (size / 100) 1) as [[z k]| |] eqn:EL; cbn [bind]; try discriminate.
    assert (forall f a c z k, hs_loop f a c = Ok (z, k) -> z <= a) as HLP.
    { clear. induction f as [|f IH]; intros a c z k; cbn [hs_loop]; destruct (10000 <=? a); try discriminate; try (intros E; injection E; intros; lia).
      intros E. apply IH in E. apply (N.le_trans _ (a / 1000)); [exact E|]. apply N.div_le_upper_bound; lia. }
    apply HLP in EL. assert (size / 100 <= size) by (apply N.div_le_upper_bound; lia).
    assert (z / 10 <= z) by (apply N.div_le_upper_bound; lia). assert (z mod 10 < 10) by (apply N.mod_lt; lia).
    pose proof (print_dec_short (z / 10) ltac:(lia)) as H3. pose proof (print_dec_short (z mod 10) ltac:(lia)) as H4.
    destruct (rd hs_prefixes k 1) as [pr| |]; cbn [bind]; try discriminate. destruct (z <? 100); intros E; injection E as <-; repeat (rewrite app_length || cbn [length]); lia.
Qed.
(** humansize returns a new block holding the NUL-terminated text, or NULL with
    the heap as it was; the text is that of C35. *)
Theorem C67_humansize junk fail1 mem fail2 size live : size < 2 ^ 64 ->
  exists live' r text v, humansize_c junk fail1 mem fail2 size live = Ok (live', r) /\
    human v text /\ v <= size /\ (forall v' s', human v' s' -> v' <= size -> v' <= v) /\
    match r with
    | Some (i, buf) => live' = i :: live /\ ~ In i live /\ buf = text ++ [0]
    | None => live' = live
    end /\ (fail1 = false -> mem = true -> fail2 = false -> r <> None).
Proof.
  intros HS. destruct (C35_humansize size HS) as (text & v & ET & HH & HV & HM). pose proof (humansize_short size text HS ET) as HL.
  unfold humansize_c. rewrite ET, bind_Ok.
  destruct (C67_asprintf junk 2147483647 fail1 mem fail2 text live) as (live' & r & E & HR & HX). rewrite E, bind_Ok.
  exists live'. destruct r as [[len [i buf]]|].
  - exists (Some (i, buf)), text, v. split; [reflexivity|]. do 3 (split; [assumption|]). split; [|intros; discriminate]. destruct HR as (H1 & H2 & H3 & _). auto.
  - exists None, text, v. split; [reflexivity|]. do 3 (split; [assumption|]). split; [exact HR|]. intros H1 H2 H3. exfalso. apply (HX H1 H2 H3 HL). reflexivity.
Qed.
Example C67_hyps : humansize_c (fun _ => 9) false true false 1599999999 [4%nat] = Ok ([5%nat; 4%nat], Some (5%nat, str "1.5 GB" ++ [0])).
Proof. vm_compute. reflexivity. Qed.
Definition Prop_warnp_all := (C66_messages, C66_determined, C67_asprintf, C67_humansize).
Print Assumptions Prop_warnp_all.
