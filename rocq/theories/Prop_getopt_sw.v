(** Property C65: the label machinery of getopt.h. *)
From Coq Require Import String.
From Verif Require Import Base SpecGetopt M_getopt M_getopt_sw P_scrypt_ref Prop_getopt SpecAscii M_main.
Local Open Scope list_scope.
Local Open Scope N_scope.
Local Notation length := List.length.
Local Notation concat := List.concat.

(** ** Specification: a switch as the programmer writes it. *)
(** The options it handles. *)
Definition sw_table (sw : switch) : table :=
  flat_map (fun c => match snd c with K_opt os => [(os, false)] | K_optarg os => [(os, true)] | K_missing => [] end) (sw_cases sw).
(** One label per line, all between GETOPT_SWITCH and GETOPT_DEFAULT, at most
    one GETOPT_MISSING_ARG; option strings are C strings without '='. *)
Definition written (sw : switch) : Prop :=
  (1 <= sw_line sw)%nat /\ (sw_line sw <= sw_default sw)%nat /\
  NoDup (map fst (sw_cases sw)) /\
  (forall l k, In (l, k) (sw_cases sw) -> (sw_line sw <= l < sw_default sw)%nat) /\
  (forall l l', In (l, K_missing) (sw_cases sw) -> In (l', K_missing) (sw_cases sw) -> l = l') /\
  (forall n b, In (n, b) (sw_table sw) -> cstring n /\ ~ In 61 n).
Definition labelled (sw : switch) (l : nat) (n : bytes) : Prop := In (l, K_opt n) (sw_cases sw) \/ In (l, K_optarg n) (sw_cases sw).
Definition missing_label (sw : switch) (l : nat) : Prop :=
  In (l, K_missing) (sw_cases sw) \/ ((forall l', ~ In (l', K_missing) (sw_cases sw)) /\ l = sw_default sw).
(** Messages are printed if opterr is set and there is no GETOPT_MISSING_ARG. *)
Definition message (sw : switch) (opterr : bool) (w : gwarn) (o : option gwarn) : Prop :=
  if opterr then
    ((exists l, In (l, K_missing) (sw_cases sw)) -> o = None) /\ ((forall l, ~ In (l, K_missing) (sw_cases sw)) -> o = Some w)
  else o = None.
(** Which label an event must reach, and what the code there must see. *)
Definition reaches (sw : switch) (opterr : bool) (e : event) (v : visit) : Prop :=
  match e with
  | Flag n => labelled sw (vis_line v) n /\ vis_ch v = n /\ vis_arg v = None /\ vis_warn v = None
  | Arg n a => labelled sw (vis_line v) n /\ vis_ch v = n /\ vis_arg v = Some a /\ vis_warn v = None
  | Missing n => missing_label sw (vis_line v) /\ vis_ch v = n /\ vis_arg v = None /\ message sw opterr (W_requires n) (vis_warn v)
  | Unexpected n => vis_line v = sw_default sw /\ vis_ch v = n /\ vis_arg v = None /\ message sw opterr (W_noarg n) (vis_warn v)
  | Unknown s => vis_line v = sw_default sw /\ vis_ch v = s /\ vis_arg v = None /\ message sw opterr (W_unknown s) (vis_warn v)
  end.

(** ** The initialisation *)
Section Init.
  Context (sw : switch).
  Hypothesis HW : written sw.
  Let m := sw_line sw.
  Let D := sw_default sw.
  Definition slot_at (l : nat) : option (bytes * bool) :=
    match case_at sw l with Some (K_opt n) => Some (n, false) | Some (K_optarg n) => Some (n, true) | _ => None end.
  (** The slots when the lines below v have been visited. *)
  Definition slots_upto (v : nat) : slots := map (fun l => if Nat.ltb l v then slot_at l else None) (seq m (D - m)).

  Lemma case_at_In l k : case_at sw l = Some k <-> In (l, k) (sw_cases sw).
  Proof.
    destruct HW as (_ & _ & HN & _). unfold case_at. clear HW. induction (sw_cases sw) as [|[l0 k0] cs IH]; cbn [find fst]; [split; [discriminate|intros []]|].
    cbn [map fst] in HN. inversion HN as [|? ? H1 H2]; subst. destruct (Nat.eqb_spec l0 l) as [->|HE].
    - split; [intros E; injection E as ->; left; reflexivity|]. intros [E|HI]; [injection E as ->; reflexivity|].
      exfalso. apply H1. apply (in_map fst) in HI. exact HI.
    - rewrite (IH H2). split; [intros HI; right; exact HI|]. intros [E|HI]; [injection E as -> ->; contradiction|exact HI].
  Qed.
  Lemma case_range l k : case_at sw l = Some k -> (m <= l < D)%nat.
  Proof. intros E. apply case_at_In in E. destruct HW as (_ & _ & _ & HR & _). apply (HR l k E). Qed.
  Lemma slot_at_In l n b : slot_at l = Some (n, b) <-> In (l, if b then K_optarg n else K_opt n) (sw_cases sw).
  Proof.
    rewrite <- case_at_In. unfold slot_at. destruct (case_at sw l) as [[x|x|]|]; destruct b; split; intros E; congruence.
  Qed.
  Lemma sw_table_In n b : In (n, b) (sw_table sw) <-> exists l, slot_at l = Some (n, b).
  Proof.
    unfold sw_table. rewrite in_flat_map. split.
    - intros ([l [x|x|]] & HI & HO); cbn [snd] in HO; try contradiction; destruct HO as [E|[]]; injection E as -> <-; exists l; apply slot_at_In; exact HI.
    - intros (l & HS). apply slot_at_In in HS. exists (l, if b then K_optarg n else K_opt n). split; [exact HS|]. destruct b; left; reflexivity.
  Qed.
  Lemma slots_upto_length v : length (slots_upto v) = (D - m)%nat.
  Proof. unfold slots_upto. rewrite map_length, seq_length. reflexivity. Qed.
  Lemma slots_upto_nth v i : (i < D - m)%nat -> nth_error (slots_upto v) i = Some (if Nat.ltb (m + i) v then slot_at (m + i) else None).
  Proof.
    intros H. unfold slots_upto. rewrite (map_nth_error _ _ _ (d := (m + i)%nat)); [reflexivity|].
    rewrite (nth_error_nth' _ 0%nat) by (rewrite seq_length; exact H). rewrite seq_nth by exact H. reflexivity.
  Qed.
  Lemma slots_upto_In v n b : In (Some (n, b)) (slots_upto v) <-> exists l, (l < v)%nat /\ slot_at l = Some (n, b).
  Proof.
    unfold slots_upto. rewrite in_map_iff. split.
    - intros (l & E & HI). exists l. destruct (Nat.ltb_spec l v); [auto|discriminate].
    - intros (l & HL & E). exists l. destruct (Nat.ltb_spec l v); [|lia]. split; [exact E|].
      unfold slot_at in E. destruct (case_at sw l) as [k|] eqn:EC; [|discriminate]. apply case_range in EC. apply in_seq. lia.
  Qed.
  Lemma slots_upto_start v : (v <= m)%nat -> slots_upto v = repeat None (D - m).
  Proof.
    intros H. unfold slots_upto.
    assert (forall a k, (m <= a)%nat -> map (fun l => if Nat.ltb l v then slot_at l else None) (seq a k) = repeat None k) as HX.
    { intros a k. revert a. induction k as [|k IH]; intros a HA; [reflexivity|]. cbn [seq map repeat]. rewrite IH by lia. destruct (Nat.ltb_spec a v); [lia|reflexivity]. }
    apply HX. lia.
  Qed.
  Lemma slots_upto_skip v : slot_at v = None -> slots_upto (S v) = slots_upto v.
  Proof.
    intros H. unfold slots_upto. apply map_ext. intros l. destruct (Nat.ltb_spec l (S v)), (Nat.ltb_spec l v); try lia; try reflexivity.
    replace l with v by lia. exact H.
  Qed.
  Lemma slots_upto_step v o : (m <= v < D)%nat -> slot_at v = Some o -> upd (slots_upto v) (v - m) [Some o] = slots_upto (S v).
  Proof.
    intros HV HS. unfold slots_upto. replace (D - m)%nat with ((v - m) + S (D - S v))%nat by lia. rewrite seq_app, !map_app. cbn [seq map].
    replace (m + (v - m))%nat with v by lia.
    set (f := fun l => if Nat.ltb l v then slot_at l else None). set (g := fun l => if Nat.ltb l (S v) then slot_at l else None).
    assert (map g (seq m (v - m)) = map f (seq m (v - m))) as ->.
    { apply map_ext_in. intros l HI. apply in_seq in HI. unfold f, g. destruct (Nat.ltb_spec l (S v)), (Nat.ltb_spec l v); try lia; reflexivity. }
    assert (map g (seq (S v) (D - S v)) = map f (seq (S v) (D - S v))) as ->.
    { apply map_ext_in. intros l HI. apply in_seq in HI. unfold f, g. destruct (Nat.ltb_spec l (S v)), (Nat.ltb_spec l v); try lia; reflexivity. }
    change (if Nat.ltb v (S v) then slot_at v else None) with (g v). change (if Nat.ltb v v then slot_at v else None) with (f v).
    assert (g v = Some o) as -> by (unfold g; destruct (Nat.ltb_spec v (S v)); [exact HS|lia]).
    change (f v :: map f (seq (S v) (D - S v))) with ([f v] ++ map f (seq (S v) (D - S v))).
    change (Some o :: map f (seq (S v) (D - S v))) with ([Some o] ++ map f (seq (S v) (D - S v))).
    assert (length (map f (seq m (v - m))) = (v - m)%nat) as HL by (rewrite map_length, seq_length; reflexivity).
    rewrite <- HL at 2. rewrite upd_app by reflexivity. reflexivity.
  Qed.
  (** Is the option on line v acceptable, given the ones before it? *)
  Definition fresh (v : nat) (n : bytes) : Prop :=
    shape_ok n /\ forall l b, (l < v)%nat -> slot_at l = Some (n, b) -> False.
  Lemma register_spec v n b : (m <= v < D)%nat -> slot_at v = Some (n, b) -> cstring n -> ~ In 61 n ->
    (fresh v n /\ getopt_register_opt (slots_upto v) n (v - m) b = Ok (slots_upto (S v))) \/
    (~ fresh v n /\ getopt_register_opt (slots_upto v) n (v - m) b = Abort).
  Proof.
    intros HV HS HC H61. unfold getopt_register_opt.
    assert (nth_error (slots_upto v) (v - m) = Some None) as HN.
    { rewrite slots_upto_nth by lia. replace (m + (v - m))%nat with v by lia. rewrite Nat.ltb_irrefl. reflexivity. }
    rewrite (rd_one _ _ _ HN), bind_Ok. cbn [assert_ bind].
    destruct n as [|c0 n]; [right; split; [intros [[(c & E & _)|(c & t & E)] _]; discriminate|reflexivity]|].
    rewrite chr_cons, bind_Ok. destruct (N.eqb_spec c0 45) as [->|HC0]; cbn [negb].
    2:{ right. split; [intros [[(c & E & _)|(c & t & E)] _]; injection E; intros; congruence|reflexivity]. }
    destruct n as [|c1 n]; [right; split; [intros [[(c & E & _)|(c & t & E)] _]; discriminate|reflexivity]|].
    change (chr (45 :: c1 :: n) 1) with (Ok c1). rewrite bind_Ok.
    assert (c1 <> 0) as HC1 by (intros ->; apply HC; right; left; reflexivity). apply N.eqb_neq in HC1. rewrite HC1.
    set (nm := 45 :: c1 :: n) in *.
    assert ((shape_ok nm /\ exists c2, chr nm 2 = Ok c2 /\ (((c1 =? 45) && (c2 =? 0)) || (negb (c1 =? 45) && negb (c2 =? 0))) = false) \/
            (~ shape_ok nm /\ exists c2, chr nm 2 = Ok c2 /\ (((c1 =? 45) && (c2 =? 0)) || (negb (c1 =? 45) && negb (c2 =? 0))) = true)) as HSH.
    { unfold nm. destruct n as [|c2 n].
      - change (chr [45; c1] 2) with (Ok 0). destruct (N.eqb_spec c1 45) as [->|HX].
        + right. split; [intros [(c & E & HH)|(c & t & E)]; [injection E as <-; contradiction|discriminate]|]. exists 0. split; reflexivity.
        + left. split; [left; exists c1; auto|]. exists 0. split; reflexivity.
      - change (chr (45 :: c1 :: c2 :: n) 2) with (Ok c2). assert (c2 <> 0) as HC2 by (intros ->; apply HC; right; right; left; reflexivity). apply N.eqb_neq in HC2.
        destruct (N.eqb_spec c1 45) as [->|HX].
        + left. split; [right; exists c2, n; reflexivity|]. exists c2. rewrite HC2. split; reflexivity.
        + right. split; [intros [(c & E & _)|(c & t & E)]; [discriminate|injection E; intros; contradiction]|]. exists c2. rewrite HC2. split; reflexivity. }
    destruct HSH as [(HSH & c2 & E2 & EB)|(HSH & c2 & E2 & EB)]; rewrite E2, bind_Ok, EB; [|right; split; [intros [H _]; contradiction|reflexivity]].
    destruct (searchopt_spec (slots_upto v) nm HC 0) as (r & Er & Hr). unfold searchopt. rewrite Er, bind_Ok. destruct r as [i|].
    - right. split; [|reflexivity]. destruct Hr as (_ & n' & b' & HNi & HO). intros [_ HF].
      apply nth_error_In in HNi. apply slots_upto_In in HNi. destruct HNi as (l & HL & HSl). destruct HO as [EO|(w & EO)].
      + rewrite <- EO in HSl. apply (HF l b' HL HSl).
      + apply H61. rewrite EO. apply in_or_app. right. left. reflexivity.
    - left. split.
      + split; [exact HSH|]. intros l b' HL HSl. destruct (Hr nm b') as [HX _]; [apply slots_upto_In; exists l; auto|apply HX; reflexivity].
      + rewrite wr_ok by (cbn [length]; rewrite slots_upto_length; lia). f_equal. apply slots_upto_step; [lia|exact HS].
  Qed.

  Definition miss_ok (v x : nat) : Prop :=
    (forall l, (l < v)%nat -> case_at sw l = Some K_missing -> x = (l - m)%nat) /\
    ((forall l, (l < v)%nat -> case_at sw l <> Some K_missing) -> x = (D - m + 1)%nat).
  Definition with_table (st : gstatic) (init : bool) (v x : nat) : gstatic :=
    mk_gst false (s_opterr st) init (Some (slots_upto v)) x (D - m + 1) (s_found st) (s_optarg st) (s_gs st).
  Lemma names_ok v n b : slot_at v = Some (n, b) -> cstring n /\ ~ In 61 n.
  Proof. intros HS. destruct HW as (_ & _ & _ & _ & _ & HN). apply (HN n b). apply sw_table_In. exists v. exact HS. Qed.
  Lemma miss_skip v x : case_at sw v <> Some K_missing -> miss_ok v x -> miss_ok (S v) x.
  Proof.
    intros HC [H1 H2]. split.
    - intros l HL E. apply H1; [|exact E]. destruct (Nat.eq_dec l v) as [->|]; [contradiction|lia].
    - intros H. apply H2. intros l HL. apply H. lia.
  Qed.
  Lemma init_loop_spec st k : forall fuel v x, (m <= v <= D)%nat -> (D - v <= k)%nat -> (k < fuel)%nat -> miss_ok v x ->
    ((forall l n b, (v <= l)%nat -> slot_at l = Some (n, b) -> fresh l n) /\
     exists x', miss_ok D x' /\ init_loop sw fuel v true (with_table st false v x) = Ok (with_table st true D x')) \/
    ((exists l n b, (v <= l)%nat /\ slot_at l = Some (n, b) /\ ~ fresh l n) /\ init_loop sw fuel v true (with_table st false v x) = Abort).
  Proof.
    induction k as [|k IH]; intros fuel v x HV HK HF HM; destruct fuel as [|fuel]; try lia.
    - assert (v = D) as -> by lia. left. split.
      + intros l n b HL HS. exfalso. unfold slot_at in HS. destruct (case_at sw l) as [c|] eqn:EC; [|discriminate]. apply case_range in EC. lia.
      + exists x. split; [exact HM|]. cbn [init_loop]. destruct (case_at sw D) as [c|] eqn:EC; [apply case_range in EC; lia|].
        fold D. rewrite Nat.eqb_refl. reflexivity.
    - destruct (Nat.eq_dec v D) as [->|HVD].
      { left. split.
        + intros l n b HL HS. exfalso. unfold slot_at in HS. destruct (case_at sw l) as [c|] eqn:EC; [|discriminate]. apply case_range in EC. lia.
        + exists x. split; [exact HM|]. cbn [init_loop]. destruct (case_at sw D) as [c|] eqn:EC; [apply case_range in EC; lia|].
          fold D. rewrite Nat.eqb_refl. reflexivity. }
      assert (forall n b, slot_at v = Some (n, b) -> (register_opt (with_table st false v x) n (v - sw_line sw) b = (sl <- getopt_register_opt (slots_upto v) n (v - m) b ;; Ok (mk_gst false (s_opterr st) false (Some sl) x (D - m + 1) (s_found st) (s_optarg st) (s_gs st))))) as HRG by reflexivity.
      assert (forall n b, slot_at v = Some (n, b) -> case_at sw v <> Some K_missing -> 
        ((forall l n b, (v <= l)%nat -> slot_at l = Some (n, b) -> fresh l n) /\
          exists x', miss_ok D x' /\ (st <- register_opt (with_table st false v x) n (v - sw_line sw) b ;; init_loop sw fuel (S v) true st) = Ok (with_table st true D x')) \/
        ((exists l n b, (v <= l)%nat /\ slot_at l = Some (n, b) /\ ~ fresh l n) /\ (st <- register_opt (with_table st false v x) n (v - sw_line sw) b ;; init_loop sw fuel (S v) true st) = Abort)) as HREG.
      { intros n b HS HNM. destruct (names_ok v n b HS) as [HC H61]. rewrite (HRG n b HS).
        destruct (register_spec v n b ltac:(lia) HS HC H61) as [[HFR ->]|[HFR ->]].
        - rewrite !bind_Ok. change (mk_gst false (s_opterr st) false (Some (slots_upto (S v))) x (D - m + 1) (s_found st) (s_optarg st) (s_gs st)) with (with_table st false (S v) x).
          destruct (IH fuel (S v) x ltac:(lia) ltac:(lia) ltac:(lia) (miss_skip v x HNM HM)) as [[HA HB]|[(l & n' & b' & HL & HSl & HFl) HB]].
          + left. split; [|exact HB]. intros l n' b' HL HSl. destruct (Nat.eq_dec l v) as [->|]; [|apply (HA l n' b'); [lia|exact HSl]].
            assert (n' = n) as -> by congruence. exact HFR.
          + right. split; [|exact HB]. exists l, n', b'. split; [lia|]. auto.
        - right. split; [|reflexivity]. exists v, n, b. auto. }
      assert (slot_at v = None -> forall x', miss_ok (S v) x' ->
        ((forall l n b, (v <= l)%nat -> slot_at l = Some (n, b) -> fresh l n) /\
          exists x'', miss_ok D x'' /\ init_loop sw fuel (S v) true (with_table st false v x') = Ok (with_table st true D x'')) \/
        ((exists l n b, (v <= l)%nat /\ slot_at l = Some (n, b) /\ ~ fresh l n) /\ init_loop sw fuel (S v) true (with_table st false v x') = Abort)) as HSKIP.
      { intros HS x' HM'. assert (with_table st false v x' = with_table st false (S v) x') as -> by (unfold with_table; rewrite (slots_upto_skip v HS); reflexivity).
        destruct (IH fuel (S v) x' ltac:(lia) ltac:(lia) ltac:(lia) HM') as [[HA HB]|[(l & n' & b' & HL & HSl & HFl) HB]].
        + left. split; [|exact HB]. intros l n' b' HL HSl. destruct (Nat.eq_dec l v) as [->|]; [congruence|apply (HA l n' b'); [lia|exact HSl]].
        + right. split; [|exact HB]. exists l, n', b'. split; [lia|]. auto. }
      cbn [init_loop]. unfold slot_at in HREG at 1. unfold slot_at in HSKIP at 1. destruct (case_at sw v) as [[n|n|]|] eqn:EC.
      + apply HREG; [reflexivity|discriminate].
      + apply HREG; [reflexivity|discriminate].
      + assert (getopt_register_missing (with_table st false v x) (v - sw_line sw) = Ok (with_table st false v (v - m))) as -> by reflexivity.
        rewrite bind_Ok. apply HSKIP; [reflexivity|]. split.
        * intros l HL E. f_equal. destruct HW as (_ & _ & _ & _ & HU & _). apply HU; apply case_at_In; assumption.
        * intros H. exfalso. apply (H v); [lia|exact EC].
      + destruct (Nat.eqb_spec v (sw_default sw)) as [EV|EV]; [contradiction|]. apply HSKIP; [reflexivity|]. apply miss_skip; [congruence|exact HM].
  Qed.
  Lemma init_spec st : s_optreset st = false -> s_init st = false ->
    ((forall l n b, slot_at l = Some (n, b) -> fresh l n) /\
     exists x', miss_ok D x' /\ init_loop sw (2 + (D - m)) (m - 1) false st = Ok (with_table st true D x')) \/
    ((exists l n b, slot_at l = Some (n, b) /\ ~ fresh l n) /\ init_loop sw (2 + (D - m)) (m - 1) false st = Abort).
  Proof.
    intros HR HI. destruct HW as (H1 & HD & _). fold m in H1, HD. fold D in HD. change (2 + (D - m))%nat with (S (S (D - m))).
    assert (init_loop sw (S (S (D - m))) (m - 1) false st = init_loop sw (S (D - m)) m true (with_table st false m (D - m + 1))) as ->.
    { set (F := S (D - m)). cbn [init_loop]. destruct (case_at sw (m - 1)) as [c|] eqn:EC; [apply case_range in EC; lia|].
      fold D. destruct (Nat.eqb_spec (m - 1) D); [lia|]. unfold setrange. rewrite HR, HI. cbn [negb assert_ bind].
      replace (S (m - 1)) with m by lia. unfold with_table. rewrite (slots_upto_start m) by lia. reflexivity. }
    destruct (init_loop_spec st (D - m) (S (D - m)) m (D - m + 1)%nat) as [[HA HB]|[(l & n & b & HL & HS & HF) HB]]; try lia.
    - split; [intros l HL EC; apply case_range in EC; lia|reflexivity].
    - left. split; [|exact HB]. intros l n b HS. apply (HA l n b); [|exact HS]. unfold slot_at in HS. destruct (case_at sw l) as [c|] eqn:EC; [|discriminate]. apply case_range in EC. lia.
    - right. split; [exists l, n, b; auto|exact HB].
  Qed.
  (** Acceptable means: a good table. *)
  Lemma good_fresh : good_table (sw_table sw) <-> (forall l n b, slot_at l = Some (n, b) -> fresh l n).
  Proof.
    split.
    - intros [HN HF] l n b HS. rewrite Forall_forall in HF. split.
      + assert (In (n, b) (sw_table sw)) as HI by (apply sw_table_In; exists l; exact HS). apply (HF (n, b) HI).
      + intros l' b' HL HS'. apply slot_at_In in HS. apply slot_at_In in HS'. clear HF. unfold sw_table in HN.
        assert (forall cs, NoDup (map fst (flat_map (fun c : nat * kind => match snd c with K_opt os => [(os, false)] | K_optarg os => [(os, true)] | K_missing => [] end) cs)) ->
          In (l, if b then K_optarg n else K_opt n) cs -> In (l', if b' then K_optarg n else K_opt n) cs -> l = l') as HX.
        { clear. intros cs. induction cs as [|[l0 k0] cs IH]; [intros _ []|]. cbn [flat_map snd]. rewrite map_app. intros HN.
          assert (forall l (b : bool), In (l, if b then K_optarg n else K_opt n) cs -> In n (map fst (flat_map (fun c : nat * kind => match snd c with K_opt os => [(os, false)] | K_optarg os => [(os, true)] | K_missing => [] end) cs))) as HIN.
          { intros l1 b1 HI. apply in_map_iff. exists (n, b1). split; [reflexivity|]. apply in_flat_map. exists (l1, if b1 then K_optarg n else K_opt n). split; [exact HI|]. destruct b1; left; reflexivity. }
          intros [E|HI] [E'|HI'].
          - congruence.
          - injection E as -> ->. exfalso. assert (In n (map fst (match (if b then K_optarg n else K_opt n) with K_opt os => [(os, false)] | K_optarg os => [(os, true)] | K_missing => [] end))) by (destruct b; left; reflexivity).
            destruct b; cbn [map fst app] in HN; inversion HN as [|? ? HA HB]; subst; apply HA; apply (HIN l' b' HI').
          - injection E' as -> ->. exfalso. destruct b'; cbn [map fst app] in HN; inversion HN as [|? ? HA HB]; subst; apply HA; apply (HIN l b HI).
          - apply IH; [|exact HI|exact HI']. destruct k0; cbn [map app fst] in HN; try (inversion HN; assumption); exact HN. }
        specialize (HX (sw_cases sw) HN HS HS'). lia.
    - intros HF. split.
      + assert (forall cs, (forall l k, In (l, k) cs -> In (l, k) (sw_cases sw)) -> NoDup (map fst cs) ->
          NoDup (map fst (flat_map (fun c : nat * kind => match snd c with K_opt os => [(os, false)] | K_optarg os => [(os, true)] | K_missing => [] end) cs))) as HX.
        { intros cs. induction cs as [|[l0 k0] cs IH]; intros HS HN; [constructor|]. cbn [flat_map snd]. rewrite map_app.
          cbn [map fst] in HN. inversion HN as [|? ? HA HB]; subst. assert (NoDup (map fst (flat_map (fun c : nat * kind => match snd c with K_opt os => [(os, false)] | K_optarg os => [(os, true)] | K_missing => [] end) cs))) as HI by (apply IH; [intros; apply HS; right; assumption|exact HB]).
          assert (forall n b, k0 = (if b : bool then K_optarg n else K_opt n) -> ~ In n (map fst (flat_map (fun c : nat * kind => match snd c with K_opt os => [(os, false)] | K_optarg os => [(os, true)] | K_missing => [] end) cs))) as HNI.
          { intros n b -> HI2. apply in_map_iff in HI2. destruct HI2 as ([n' b'] & E & HI2). cbn [fst] in E. subst n'.
            apply in_flat_map in HI2. destruct HI2 as ([l1 k1] & HI1 & HO). cbn [snd] in HO.
            assert (slot_at l1 = Some (n, b')) as HS1.
            { apply slot_at_In. apply HS. right. destruct k1; try contradiction; destruct HO as [E|[]]; injection E as -> <-; exact HI1. }
            assert (slot_at l0 = Some (n, b)) as HS0 by (apply slot_at_In, HS; left; reflexivity).
            destruct (Nat.lt_trichotomy l0 l1) as [HL|[->|HL]].
            - apply (proj2 (HF l1 n b' HS1) l0 b HL HS0).
            - apply HA. apply (in_map fst) in HI1. exact HI1.
            - apply (proj2 (HF l0 n b HS0) l1 b' HL HS1). }
          destruct k0 as [n|n|]; cbn [map fst app]; [constructor; [apply (HNI n false); reflexivity|exact HI]|constructor; [apply (HNI n true); reflexivity|exact HI]|exact HI]. }
        apply HX; [auto|]. destruct HW as (_ & _ & HN & _). exact HN.
      + apply Forall_forall. intros [n b] HI. apply sw_table_In in HI. destruct HI as (l & HS). cbn [fst]. split; [apply (HF l n b HS)|apply (names_ok l n b HS)].
  Qed.
End Init.

(** ** The loop *)
Lemma missing_dec (cs : list (nat * kind)) : (exists l, In (l, K_missing) cs) \/ (forall l, ~ In (l, K_missing) cs).
Proof.
  induction cs as [|[l0 k0] cs [(l & IH)|IH]]; [right; intros l []|left; exists l; right; exact IH|].
  destruct k0 as [n|n|]; [right|right|left; exists l0; left; reflexivity]; intros l [E|HI]; try discriminate; apply (IH l HI).
Qed.
Lemma parse_same T T' : (forall n b, In (n, b) T <-> In (n, b) T') -> forall args evs rest, parse T args evs rest -> parse T' args evs rest.
Proof.
  intros HT.
  assert (forall n b, known T n b -> known T' n b) as HK by (intros n b H; apply HT; exact H).
  assert (forall n, not_known T n -> not_known T' n) as HN by (intros n H b HI; apply (H b), HT, HI).
  refine (proj1 (parse_mutind T (fun args evs rest _ => parse T' args evs rest) (fun cs args evs rest _ => cluster T' cs args evs rest)
    _ _ _ _ _ _ _ _ _ _ _ _ _ _ _ _ _ _ _)).
  - intros; eapply parse_end; eauto.
  - intros; eapply parse_dashdash; eauto.
  - intros; eapply parse_dash; eauto.
  - intros; eapply parse_empty; eauto.
  - intros; eapply parse_other; eauto.
  - intros; eapply parse_cluster; eauto.
  - intros; eapply parse_flag; eauto.
  - intros; eapply parse_unexpected; eauto.
  - intros; eapply parse_arg; eauto.
  - intros; eapply parse_arg_eq; eauto.
  - intros; eapply parse_missing; eauto.
  - intros; eapply parse_unknown; eauto.
  - intros; eapply parse_unknown_eq; eauto.
  - intros; eapply cluster_end; eauto.
  - intros; eapply cluster_flag; eauto.
  - intros; eapply cluster_unknown; eauto.
  - intros; eapply cluster_attached; eauto.
  - intros; eapply cluster_arg; eauto.
  - intros; eapply cluster_missing; eauto.
Qed.
Section Loop.
  Context (sw : switch) (argv : list bytes) (oe : bool) (x : nat).
  Hypothesis HW : written sw.
  Hypothesis HG : good_table (sw_table sw).
  Hypothesis HA : Forall cstring argv.
  Hypothesis HX : miss_ok sw (sw_default sw) x.
  Let m := sw_line sw.
  Let D := sw_default sw.
  Let F := slots_upto sw D.
  Let d := (D - m + 1)%nat.
  Let hm := negb oe || negb (Nat.eqb x d).
  Definition ready (fo : option nat) (a : option bytes) (g : gstate) : gstatic := mk_gst false oe true (Some F) x d fo a g.
  Lemma F_In n b : In (n, b) (table_of F) <-> In (n, b) (sw_table sw).
  Proof.
    rewrite in_table. unfold F. rewrite slots_upto_In by exact HW. rewrite sw_table_In by exact HW. split.
    - intros (l & _ & E). exists l. exact E.
    - intros (l & E). exists l. split; [|exact E]. unfold slot_at in E. destruct (case_at sw l) as [c|] eqn:EC; [|discriminate].
      apply (case_range sw HW) in EC. unfold D. lia.
  Qed.
  Lemma F_good : good_table (table_of F).
  Proof.
    split.
    - assert (forall a k v, (v <= a)%nat -> NoDup (map fst (flat_map (fun s => match s with Some o => [o] | None => [] end) (map (slot_at sw) (seq a k)))) ) as HN.
      { intros a k. revert a. induction k as [|k IH]; intros a v HV; [constructor|]. cbn [seq map flat_map].
        destruct (slot_at sw a) as [[n b]|] eqn:ES; cbn [app map fst]; [|apply (IH (S a) a); lia]. constructor; [|apply (IH (S a) a); lia].
        intros HI. apply in_map_iff in HI. destruct HI as ([n' b'] & E & HI). cbn [fst] in E. subst n'. apply in_flat_map in HI. destruct HI as (s & HI & HO).
        apply in_map_iff in HI. destruct HI as (l & El & HI). apply in_seq in HI. destruct s as [o|]; [|contradiction]. destruct HO as [->|[]].
        pose proof (proj1 (good_fresh sw HW) HG l n b' El) as [_ HF]. apply (HF a b); [lia|exact ES]. }
      assert (F = map (slot_at sw) (seq m (D - m))) as EF.
      { unfold F, slots_upto. apply map_ext_in. intros l HI. apply in_seq in HI. fold m D in HI. destruct (Nat.ltb_spec l D) as [_|HH]; [reflexivity|lia]. }
      unfold table_of. rewrite EF. apply (HN m (D - m)%nat 0%nat). lia.
    - apply Forall_forall. intros [n b] HI. apply F_In in HI. destruct HG as [_ HF]. rewrite Forall_forall in HF. apply (HF (n, b) HI).
  Qed.
  Lemma x_cases : ((exists l, In (l, K_missing) (sw_cases sw)) /\ x <> d) \/ ((forall l, ~ In (l, K_missing) (sw_cases sw)) /\ x = d).
  Proof.
    destruct (missing_dec (sw_cases sw)) as [(l & HI)|HN].
    - left. split; [exists l; exact HI|]. apply (case_at_In sw HW) in HI. pose proof (case_range sw HW _ _ HI) as HR.
      destruct HX as [H1 _]. rewrite (H1 l) by (try exact HI; lia). unfold d, D, m. lia.
    - right. split; [exact HN|]. apply (proj2 HX). intros l _ HC. apply (case_at_In sw HW) in HC. apply (HN l HC).
  Qed.
  Lemma msg_ok w : message sw oe w (if hm then None else Some w).
  Proof.
    pose proof x_cases as XC. unfold message, hm. destruct oe; [|reflexivity]. cbn [negb orb]. destruct XC as [[HE HN]|[HE HN]].
    - apply Nat.eqb_neq in HN. rewrite HN. split; [reflexivity|]. intros H. destruct HE as (l & HI). contradiction (H l HI).
    - apply Nat.eqb_eq in HN. rewrite HN. split; [|reflexivity]. intros (l & HI). contradiction (HE l HI).
  Qed.
  Lemma jump_default os w a g : jump sw (ready (Some d) a g) (G_opt os w) = Ok (Some D).
  Proof.
    unfold jump, getopt_lookup, ready. cbn [s_optreset s_init s_found s_missing s_default assert_ bind]. rewrite Nat.eqb_refl, orb_true_r. cbn [assert_ bind].
    destruct (case_at sw (d + sw_line sw)) as [c|] eqn:EC.
    - exfalso. apply (case_range sw HW) in EC. unfold d, D, m in EC. lia.
    - destruct (Nat.eqb_spec (d + sw_line sw) (sw_default sw)) as [E|_]; [|reflexivity]. exfalso. unfold d, D, m in E. lia.
  Qed.
  Lemma jump_missing os w a g : exists l, jump sw (ready (Some x) a g) (G_opt os w) = Ok (Some l) /\ missing_label sw l.
  Proof.
    destruct x_cases as [[(l & HI) HN]|[HE HN]].
    - exists l. split; [|left; exact HI]. apply (case_at_In sw HW) in HI. pose proof (case_range sw HW _ _ HI) as HR.
      unfold jump, getopt_lookup, ready. cbn [s_optreset s_init s_found s_missing s_default assert_ bind]. rewrite Nat.eqb_refl. cbn [orb assert_ bind].
      assert (x = (l - sw_line sw)%nat) as EX by (apply (proj1 HX); [lia|exact HI]). replace (x + sw_line sw)%nat with l by lia. rewrite HI. reflexivity.
    - exists D. split; [rewrite HN; apply jump_default|right; auto].
  Qed.
  Lemma jump_slot i n b w a g : nth_error F i = Some (Some (n, b)) -> (b = true -> exists y, a = Some y) ->
    exists l, jump sw (ready (Some i) a g) (G_opt n w) = Ok (Some l) /\ labelled sw l n.
  Proof.
    intros HN HB. assert (i < D - m)%nat as HL.
    { assert (i < length F)%nat as H by (apply nth_error_Some; congruence). unfold F in H. rewrite slots_upto_length in H. exact H. }
    unfold F in HN. rewrite slots_upto_nth in HN by exact HL. destruct (Nat.ltb_spec (sw_line sw + i) D) as [_|HH]; [|unfold D, m in *; lia].
    injection HN as HS. exists (m + i)%nat.
    assert (case_at sw (m + i) = Some (if b then K_optarg n else K_opt n)) as EC by (apply (case_at_In sw HW); apply (slot_at_In sw HW); exact HS).
    split; [|apply (case_at_In sw HW) in EC; destruct b; [right|left]; exact EC].
    unfold jump, getopt_lookup, ready. cbn [s_optreset s_init s_found s_missing s_default assert_ bind].
    assert (Nat.eqb i x || Nat.eqb i d = false) as ->.
    { apply orb_false_iff. split; apply Nat.eqb_neq; [|unfold d; lia]. intros ->. destruct x_cases as [[(l & HI) _]|[_ HE]]; [|unfold d in HE; lia].
      apply (case_at_In sw HW) in HI. pose proof (case_range sw HW _ _ HI) as HR. assert (x = (l - sw_line sw)%nat) as EX by (apply (proj1 HX); [lia|exact HI]).
      replace (m + x)%nat with l in EC by (unfold m; lia). rewrite HI in EC. destruct b; discriminate. }
    unfold slots_of. cbn [s_opts]. replace (length F) with (D - m)%nat by (symmetry; apply slots_upto_length).
    destruct (Nat.ltb_spec i (D - m)) as [_|HH]; [|lia].
    assert (nth_error F i = Some (Some (n, b))) as HN'.
    { unfold F. rewrite slots_upto_nth by exact HL. destruct (Nat.ltb_spec (sw_line sw + i) D) as [_|HH]; [|unfold D, m in *; lia]. f_equal. exact HS. }
    rewrite (rd_one _ _ _ HN'). cbn [bind]. rewrite list_eqb_refl. cbn [assert_ bind]. replace (i + sw_line sw)%nat with (m + i)%nat by (unfold m; lia). rewrite EC.
    destruct b; [|reflexivity]. destruct (HB eq_refl) as (y & ->). reflexivity.
  Qed.
  Lemma jump_ok r e g : dispatch F hm r = Ok (observe hm e) ->
    exists l, jump sw (ready (Some (number (ready None None g) (r_found r))) (r_arg r) g) (G_opt (r_ch r) (r_warn r)) = Ok (Some l) /\
      reaches sw oe e (mk_visit l (r_ch r) (r_arg r) (r_warn r)).
  Proof.
    destruct r as [ch fo a w]. cbn [r_ch r_found r_arg r_warn]. unfold dispatch. cbn [r_ch r_found r_arg r_warn]. destruct fo as [i| |]; cbn [number ready s_missing s_default].
    - destruct (rd F i 1) as [s| |] eqn:ER; cbn [bind]; try discriminate. destruct s as [|[[n b]|] [|y s]]; try discriminate.
      destruct (list_eqb ch n) eqn:EN; cbn [assert_ bind]; [|discriminate]. apply list_eqb_spec in EN. subst ch. intros E.
      assert (nth_error F i = Some (Some (n, b))) as HN.
      { apply rd_Ok_inv in ER. destruct ER as [HLen ER]. destruct (nth_error F i) as [z|] eqn:EZ; [|apply nth_error_None in EZ; lia].
        pose proof (rd_one F i z EZ) as H2. unfold rd in H2. destruct (Nat.leb_spec (i + 1) (length F)); [|lia]. injection H2 as H2. rewrite H2 in ER. congruence. }
      destruct (jump_slot i n b w a g HN) as (l & EJ & HL).
      { intros ->. destruct a as [y|]; [exists y; reflexivity|discriminate E]. }
      exists l. split; [exact EJ|].
      assert (mk_obs (L_opt n) n a w = observe hm e) as EO by (destruct b; [destruct a; cbn [assert_ bind] in E; [|discriminate]|cbn [bind] in E]; injection E; auto). clear E.
      destruct e as [n'|n' a'|n'|n'|n']; cbn [observe] in EO; injection EO; intros; try discriminate; try (destruct hm; discriminate).
      + subst. cbn. repeat split; auto.
      + subst. cbn. repeat split; auto.
    - intros E. assert (mk_obs (if hm then L_missing else L_default) ch a w = observe hm e) as EO by (injection E; auto). clear E.
      destruct (jump_missing ch w a g) as (l & EJ & HL).
      destruct e as [n'|n' a'|n'|n'|n']; cbn [observe] in EO; injection EO; intros; try (destruct hm; discriminate).
      + subst. exists l. split; [exact EJ|]. cbn. repeat split; auto. apply msg_ok.
      + assert (hm = false) as EH by (destruct hm; [discriminate|reflexivity]). assert (x = d) as EX by (unfold hm in EH; apply orb_false_iff in EH; destruct EH as [_ EH]; apply negb_false_iff, Nat.eqb_eq in EH; exact EH).
        exists D. rewrite EX. split; [apply jump_default|]. clear EX. subst. cbn. repeat split; auto. apply msg_ok.
      + assert (hm = false) as EH by (destruct hm; [discriminate|reflexivity]). assert (x = d) as EX by (unfold hm in EH; apply orb_false_iff in EH; destruct EH as [_ EH]; apply negb_false_iff, Nat.eqb_eq in EH; exact EH).
        exists D. rewrite EX. split; [apply jump_default|]. clear EX. subst. cbn. repeat split; auto. apply msg_ok.
    - intros E. assert (mk_obs L_default ch a w = observe hm e) as EO by (injection E; auto). clear E.
      exists D. split; [apply jump_default|].
      destruct e as [n'|n' a'|n'|n'|n']; cbn [observe] in EO; injection EO; intros; try discriminate.
      + assert (hm = false) as EH by (destruct hm; [discriminate|reflexivity]). assert (x = d) as EX by (unfold hm in EH; apply orb_false_iff in EH; destruct EH as [_ EH]; apply negb_false_iff, Nat.eqb_eq in EH; exact EH).
        assert (forall l, ~ In (l, K_missing) (sw_cases sw)) as HNM by (destruct x_cases as [[_ HN]|[HN _]]; [contradiction|exact HN]). clear EX.
        subst. cbn. split; [|repeat split; auto; apply msg_ok]. right. split; [exact HNM|reflexivity].
      + subst. cbn. repeat split; auto. apply msg_ok.
      + subst. cbn. repeat split; auto. apply msg_ok.
  Qed.
  Lemma call_ready fo a g : getopt_call argv (ready fo a g) =
    (' (g, r) <- getopt F hm argv g ;;
     match r with
     | None => Ok (ready fo None g, G_null)
     | Some r => Ok (ready (Some (number (ready None None g) (r_found r))) (r_arg r) g, G_opt (r_ch r) (r_warn r))
     end).
  Proof. reflexivity. Qed.
  Lemma switch_loop_ready fuel : forall fo a g, ginv argv g -> (measure argv g < fuel)%nat ->
    exists evs vs fo' a' g', switch_loop sw fuel argv (ready fo a g) = Ok (vs, ready fo' a' g') /\
      parse_st F argv g evs (skipn (g_optind g') argv) /\ Forall2 (reaches sw oe) evs vs.
  Proof.
    induction fuel as [|fuel IH]; intros fo a g HI HM; [lia|]. cbn [switch_loop]. rewrite call_ready.
    destruct (getopt_step F hm argv F_good HA g HI) as [(g' & E & HP)|(g' & r & e & E & ED & HI' & HM' & HP)]; rewrite E, !bind_Ok.
    - exists [], [], fo, None, g'. split; [reflexivity|]. split; [exact HP|constructor].
    - destruct (jump_ok r e g' ED) as (l & EJ & HR). change (s_init (ready (Some (number (ready None None g') (r_found r))) (r_arg r) g')) with true. cbv iota.
      rewrite EJ, bind_Ok.
      destruct (IH (Some (number (ready None None g') (r_found r))) (r_arg r) g' HI' ltac:(lia)) as (evs & vs & fo' & a' & g2 & EL & HPL & HF).
      rewrite EL, bind_Ok. exists (e :: evs), (mk_visit l (r_ch r) (r_arg r) (r_warn r) :: vs), fo', a', g2. split; [reflexivity|]. split; [apply HP, HPL|].
      constructor; [exact HR|exact HF].
  Qed.
End Loop.

(** ** C65 *)
Definition enough_fuel (argv : list bytes) (fuel : nat) : Prop := (length (concat argv) + length argv + 2 <= fuel)%nat.
Lemma measure_gs0 argv fuel : enough_fuel argv (S fuel) -> (measure argv gs0 < fuel)%nat.
Proof.
  unfold enough_fuel. intros HF. unfold measure. cbn [gs0 g_packed g_optind]. destruct argv as [|a l]; [cbn in *; lia|].
  assert (total l = (length (concat l) + length l)%nat) as HL.
  { clear. induction l as [|x l IH]; [reflexivity|]. cbn [total fold_right concat length]. fold (total l). rewrite IH, app_length. lia. }
  change (skipn 1 (a :: l)) with l. rewrite HL. cbn [concat length] in HF. rewrite app_length in HF. lia.
Qed.
Lemma first_call sw fuel argv st : s_optreset st = true ->
  switch_loop sw (S fuel) argv st =
  (st' <- init_loop sw (2 + (sw_default sw - sw_line sw)) (sw_line sw - 1) false (mk_gst false (s_opterr st) false None (s_missing st) (s_default st) None None gs0) ;;
   switch_loop sw fuel argv st').
Proof. intros HR. cbn [switch_loop]. unfold getopt_call. rewrite HR. reflexivity. Qed.
(** Whatever happened before (earlier loops over other switches included), a
    loop started with optreset set handles every argument vector as the grammar
    says: each event reaches its own label, in order, with its argument, and
    optind ends at the remaining arguments. *)
Theorem C65_dispatch sw argv st fuel : written sw -> good_table (sw_table sw) -> s_optreset st = true -> Forall cstring argv -> enough_fuel argv fuel ->
  exists evs vs st', switch_loop sw fuel argv st = Ok (vs, st') /\
    parse (sw_table sw) (tl argv) evs (skipn (g_optind (s_gs st')) argv) /\
    Forall2 (reaches sw (s_opterr st)) evs vs.
Proof.
  intros HW HG HR HA HF. destruct fuel as [|fuel]; [unfold enough_fuel in HF; lia|]. rewrite (first_call sw fuel argv st HR).
  destruct (init_spec sw HW (mk_gst false (s_opterr st) false None (s_missing st) (s_default st) None None gs0) eq_refl eq_refl) as [(_ & x & HX & E)|((l & n & b & HS & HNF) & _)].
  2:{ exfalso. apply HNF. apply (proj1 (good_fresh sw HW) HG l n b HS). }
  rewrite E, bind_Ok. change (with_table sw (mk_gst false (s_opterr st) false None (s_missing st) (s_default st) None None gs0) true (sw_default sw) x) with (ready sw (s_opterr st) x None None gs0).
  destruct (switch_loop_ready sw argv (s_opterr st) x HW HG HA HX fuel None None gs0) as (evs & vs & fo & a & g & EL & HP & HV).
  - intros p Hp. discriminate Hp.
  - apply measure_gs0. exact HF.
  - exists evs, vs, (ready sw (s_opterr st) x fo a g). split; [exact EL|]. split; [|exact HV]. cbn [ready s_gs].
    apply (parse_same (table_of (slots_upto sw (sw_default sw)))); [intros n b; eapply F_In; eassumption|].
    unfold parse_st in HP. cbn [gs0 g_packed g_optind] in HP. destruct argv; exact HP.
Qed.
(** A switch with a malformed or repeated option string aborts on the first
    pass, before any label is reached, whatever the arguments. *)
Theorem C65_rejects sw argv st fuel : written sw -> ~ good_table (sw_table sw) -> s_optreset st = true ->
  switch_loop sw (S fuel) argv st = Abort.
Proof.
  intros HW HG HR. rewrite (first_call sw fuel argv st HR).
  destruct (init_spec sw HW (mk_gst false (s_opterr st) false None (s_missing st) (s_default st) None None gs0) eq_refl eq_refl) as [(HF & _)|(_ & ->)]; [|reflexivity].
  exfalso. apply HG. apply (good_fresh sw HW). exact HF.
Qed.

(** The switch of main.c. *)
(* main.c:260-325 *)
Definition main_switch : switch := mk_sw 260
  [(261%nat, K_opt (str "-f")); (264%nat, K_optarg (str "--logN")); (267%nat, K_optarg (str "-M")); (278%nat, K_optarg (str "-m"));
   (284%nat, K_optarg (str "-p")); (287%nat, K_optarg (str "--passphrase")); (299%nat, K_optarg (str "-r")); (302%nat, K_optarg (str "-t"));
   (308%nat, K_opt (str "-v")); (311%nat, K_opt (str "-P")); (320%nat, K_missing)] 323.
Lemma main_written : written main_switch /\ good_table (sw_table main_switch).
Proof.
  assert (Forall (fun o => cstring (fst o) /\ ~ In 61 (fst o)) (sw_table main_switch)) as HS.
  { unfold cstring. cbn. repeat (apply Forall_cons; [cbn; split; intuition discriminate|]). apply Forall_nil. }
  split.
  - unfold written. cbn [main_switch sw_line sw_default sw_cases]. split; [lia|]. split; [lia|]. split; [|split; [|split]].
    + cbn [map fst]. repeat (apply NoDup_cons; [cbn [In]; lia|]). apply NoDup_nil.
    + intros l k HI. cbn [In] in HI. repeat (destruct HI as [E|HI]; [injection E; intros; lia|]). contradiction.
    + intros l l' HI HI'. cbn [In] in HI, HI'. assert (forall l, (261%nat, K_opt (str "-f")) = (l, K_missing) \/ In (l, K_missing) (tl (sw_cases main_switch)) -> l = 320%nat) as HX.
      { intros l0 H. destruct H as [E|H]; [discriminate|]. cbn [In tl sw_cases main_switch] in H. repeat (destruct H as [E|H]; [first [discriminate E|injection E; intros; lia]|]). contradiction. }
      rewrite (HX l HI), (HX l' HI'). reflexivity.
    + intros n b HI. rewrite Forall_forall in HS. apply (HS (n, b) HI).
  - split.
    + cbn. repeat (apply NoDup_cons; [cbn [In]; intuition discriminate|]). apply NoDup_nil.
    + cbn. repeat (apply Forall_cons; [cbn [fst]; split; [first [left; eexists; split; [reflexivity|discriminate]|right; do 2 eexists; reflexivity]|cbn; intuition discriminate]|]). apply Forall_nil.
Qed.
(** The first pass through the switch of main.c leaves exactly the table the
    model of main works with, and a GETOPT_MISSING_ARG label. *)
Theorem C65_main st : s_optreset st = false -> s_init st = false ->
  exists sl st', options = Ok sl /\ init_loop main_switch 65 259 false st = Ok st' /\ slots_of st' = sl /\ s_init st' = true /\ s_missing st' <> s_default st'.
Proof.
  intros HR HI. assert (exists sl, options = Ok sl) as (sl & E) by (eexists; vm_compute; reflexivity).
  destruct st as [r o i op ms df fo ar g]. cbn [s_optreset s_init] in HR, HI. subst r i.
  exists sl, (mk_gst false o true (Some sl) 60 64 fo ar g). split; [exact E|]. split; [|split; [reflexivity|split; [reflexivity|cbn; discriminate]]].
  assert (forall sl, options = Ok sl -> init_loop main_switch 65 259 false (mk_gst false o false op ms df fo ar g) = Ok (mk_gst false o true (Some sl) 60 64 fo ar g)) as HX; [|apply HX; exact E].
  clear. intros sl E. vm_compute in E. injection E as <-. vm_compute. reflexivity.
Qed.
(** Hypotheses met: the switch of main.c, run on a command line. *)
Example C65_hyps : written main_switch /\ good_table (sw_table main_switch) /\ s_optreset gst0 = true /\
  exists vs st', switch_loop main_switch 100 [str "enc"; str "-fvP"; str "--logN=14"; str "-t"; str "5"; str "-q"; str "file"] gst0 = Ok (vs, st') /\
    map vis_line vs = [261; 308; 311; 264; 302; 323]%nat /\ map vis_arg vs = [None; None; None; Some (str "14"); Some (str "5"); None] /\ g_optind (s_gs st') = 6%nat.
Proof.
  split; [apply main_written|]. split; [apply main_written|]. split; [reflexivity|]. do 2 eexists. split; [vm_compute; reflexivity|].
  split; [reflexivity|]. split; reflexivity.
Qed.
(** and a switch that is rejected: -a twice. *)
Example C65_rejects_hyps : written (mk_sw 5 [(6%nat, K_opt (str "-a")); (9%nat, K_optarg (str "-a"))] 12) /\
  ~ good_table (sw_table (mk_sw 5 [(6%nat, K_opt (str "-a")); (9%nat, K_optarg (str "-a"))] 12)).
Proof.
  split.
  - unfold written. cbn [sw_line sw_default sw_cases]. split; [lia|]. split; [lia|]. split; [|split; [|split]].
    + cbn [map fst]. repeat (apply NoDup_cons; [cbn [In]; lia|]). apply NoDup_nil.
    + intros l k [E|[E|[]]]; injection E; intros; lia.
    + intros l l' [E|[E|[]]]; discriminate.
    + intros n b [E|[E|[]]]; injection E; intros; subst; unfold cstring; cbn; intuition discriminate.
  - intros [HN _]. cbn in HN. inversion HN as [|? ? HA _]; subst. apply HA. left. reflexivity.
Qed.
Definition Prop_getopt_sw_all := (C65_dispatch, C65_rejects, C65_main).
Print Assumptions Prop_getopt_sw_all.
