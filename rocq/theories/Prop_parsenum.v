(** Property C37: numeric options. *)
From Verif Require Import Base SpecNumber M_double M_strto M_parsenum.

(** ** The scanner recognises exactly the specified notation *)
Lemma isspace_spec c : isspace c = true <-> is_space c.
Proof. unfold isspace, is_space. lia. Qed.
Lemma digit_in_spec b c d : digit_in b c = Some d <-> is_digit_of b c d.
Proof.
  unfold digit_in, digit_of, is_digit_of.
  destruct ((48 <=? c) && (c <=? 57)) eqn:E1; [|destruct ((97 <=? c) && (c <=? 122)) eqn:E2; [|destruct ((65 <=? c) && (c <=? 90)) eqn:E3]].
  - destruct (c - 48 <? b) eqn:E; split; try discriminate; try (intros H; injection H as <-; lia); intros [H1 [H2|[H2|H2]]]; try lia; f_equal; lia.
  - destruct (c - 87 <? b) eqn:E; split; try discriminate; try (intros H; injection H as <-; lia); intros [H1 [H2|[H2|H2]]]; try lia; f_equal; lia.
  - destruct (c - 55 <? b) eqn:E; split; try discriminate; try (intros H; injection H as <-; lia); intros [H1 [H2|[H2|H2]]]; try lia; f_equal; lia.
  - split; [discriminate|]. intros [H1 [H2|[H2|H2]]]; lia.
Qed.
(** Digits with an initial value. *)
Fixpoint all_digits (b acc : N) (s : bytes) : option N :=
  match s with
  | [] => Some acc
  | c :: s' => match digit_in b c with Some d => all_digits b (b * acc + d) s' | None => None end
  end.
Lemma all_digits_app b s t acc : all_digits b acc (s ++ t) = match all_digits b acc s with Some a => all_digits b a t | None => None end.
Proof. revert acc. induction s as [|c s IH]; intros acc; cbn [all_digits app]; [reflexivity|]. destruct (digit_in b c); [apply IH|reflexivity]. Qed.
Lemma digits_all b s v : digits b s v <-> s <> [] /\ all_digits b 0 s = Some v.
Proof.
  split.
  - induction 1 as [c d H|s v c d H [IH1 IH2] HD].
    + split; [discriminate|]. cbn [all_digits]. apply digit_in_spec in H. rewrite H. f_equal. lia.
    + split; [destruct s; discriminate|]. rewrite all_digits_app, IH2. cbn [all_digits]. apply digit_in_spec in HD. rewrite HD. reflexivity.
  - intros [HN HA]. revert v HA. induction s as [|c s IH] using rev_ind; intros v HA; [contradiction|].
    rewrite all_digits_app in HA. destruct (all_digits b 0 s) as [a|] eqn:E; [|discriminate].
    cbn [all_digits] in HA. destruct (digit_in b c) as [d|] eqn:ED; [|discriminate]. injection HA as <-. apply digit_in_spec in ED.
    destruct s as [|c0 s0].
    + cbn [all_digits] in E. injection E as <-. replace (b * 0 + d) with d by lia. apply digits_one. exact ED.
    + apply digits_snoc; [apply IH; [discriminate|reflexivity]|exact ED].
Qed.
Lemma scan_all b s : forall acc v, scan_digits b acc s = (v, []) <-> all_digits b acc s = Some v.
Proof.
  induction s as [|c s IH]; intros acc v; cbn [scan_digits all_digits].
  - split; intros H; [injection H as <-; reflexivity|congruence].
  - destruct (digit_in b c); [apply IH|]. split; intros H; discriminate.
Qed.
(** What the model recognises with nothing left over. *)
Definition usc (b : N) (t : bytes) : option (N * bytes) :=
  match t with
  | c :: _ => match digit_in b c with Some _ => Some (scan_digits b 0 t) | None => None end
  | [] => None
  end.
Definition unsigned_scan (base : N) (s : bytes) : option (N * bytes) :=
  let '(b, t) := strto_prefix base s in usc b t.
Lemma usc_digits b t v : usc b t = Some (v, [])
  <-> digits b t v.
Proof.
  rewrite digits_all. unfold usc. destruct t as [|c t].
  - split; [discriminate|intros [H _]; contradiction].
  - destruct (digit_in b c) as [d|] eqn:ED.
    + split.
      * intros H. split; [discriminate|]. apply scan_all. congruence.
      * intros [_ H]. apply scan_all in H. congruence.
    + split; [discriminate|]. intros [_ H]. cbn [all_digits] in H. rewrite ED in H. discriminate.
Qed.
Lemma digit_in_le b b' c d : b <= b' -> digit_in b c = Some d -> digit_in b' c = Some d.
Proof. unfold digit_in. intros HB. destruct (digit_of c) as [x|]; [|discriminate]. destruct (x <? b) eqn:E; [|discriminate]. intros H. injection H as <-. destruct (x <? b') eqn:E'; [reflexivity|lia]. Qed.
Lemma digit_in_x b c : b <= 16 -> is_x c = true -> digit_in b c = None.
Proof.
  unfold is_x. intros HB H. assert (c = 120 \/ c = 88) as [-> | ->] by lia.
  - unfold digit_in. change (digit_of 120) with (Some 33). cbv iota beta; destruct (N.ltb_spec 33 b) as [E|E]; [exfalso; lia|reflexivity].
  - unfold digit_in. change (digit_of 88) with (Some 33). cbv iota beta; destruct (N.ltb_spec 33 b) as [E|E]; [exfalso; lia|reflexivity].
Qed.
Lemma digits_head b c s v : digits b (c :: s) v -> exists d, digit_in b c = Some d.
Proof. rewrite digits_all. intros [_ H]. cbn [all_digits] in H. destruct (digit_in b c); [eauto|discriminate]. Qed.
Lemma digits_second b c x s v : digits b (c :: x :: s) v -> exists d, digit_in b x = Some d.
Proof.
  rewrite digits_all. intros [_ H]. cbn [all_digits] in H. destruct (digit_in b c); [|discriminate]. destruct (digit_in b x); [eauto|discriminate].
Qed.
Lemma unsigned_scan_spec base s v : unsigned_scan base s = Some (v, []) <-> magnitude base s v.
Proof.
  unfold unsigned_scan.
  assert (forall c q, s = c :: q -> (forall x h t, q = x :: h :: t -> ((base =? 0) || (base =? 16)) && (c =? 48) && is_x x && match digit_in 16 h with Some _ => true | None => false end = false) ->
    (let '(b, t) := strto_prefix base s in usc b t) = Some (v, []) <-> magnitude base s v) as HNX.
  { intros c q -> HQ.
    assert (strto_prefix base (c :: q) = if base =? 0 then (if c =? 48 then 8 else 10, c :: q) else (base, c :: q)) as ->.
    { destruct q as [|x [|h t]]; cbn [strto_prefix]; try reflexivity. rewrite (HQ x h t eq_refl). reflexivity. }
    assert (forall p q', p = 120 \/ p = 88 -> base = 0 \/ base = 16 -> c :: q = 48 :: p :: q' -> ~ digits 16 q' v) as HX.
    { intros p q' Hp Hb Hc HD. injection Hc as -> ->. destruct q' as [|h t]; [apply digits_all in HD; destruct HD; congruence|].
      apply digits_head in HD. destruct HD as [d HD]. specialize (HQ p h t eq_refl). rewrite HD in HQ. unfold is_x in HQ. lia. }
    destruct (base =? 0) eqn:EB.
    - apply N.eqb_eq in EB. destruct (c =? 48) eqn:EC.
      + apply N.eqb_eq in EC. subst c. cbv iota beta. rewrite usc_digits. split.
        * intros H. eapply mag_octal; [exact EB|reflexivity|exact H].
        * intros [HB HD|p q' HB Hp HS HD|q' HB HS HD|c' q' HB HC HS HD]; [contradiction| | |].
          -- exfalso. eapply HX; eauto.
          -- exact HD.
          -- congruence.
      + apply N.eqb_neq in EC. cbv iota beta. rewrite usc_digits. split.
        * intros H. eapply mag_decimal; [exact EB|exact EC|reflexivity|exact H].
        * intros [HB HD|p q' HB Hp HS HD|q' HB HS HD|c' q' HB HC HS HD]; [contradiction| | |]; try exact HD; congruence.
    - apply N.eqb_neq in EB. cbv iota beta. rewrite usc_digits. split.
      + intros H. apply mag_base; assumption.
      + intros [HB HD|p q' HB Hp HS HD|q' HB HS HD|c' q' HB HC HS HD]; try contradiction; [exact HD|]. exfalso. eapply HX; eauto. }
  destruct s as [|c q].
  - cbn [strto_prefix]. split; [discriminate|]. intros [HB HD|p q HB Hp HS HD|q HB HS HD|c q HB HC HS HD]; try discriminate.
    apply digits_all in HD. destruct HD; congruence.
  - destruct q as [|x [|h t]]; [apply (HNX c [] eq_refl); discriminate|apply (HNX c [x] eq_refl); discriminate|].
    destruct (((base =? 0) || (base =? 16)) && (c =? 48) && is_x x && match digit_in 16 h with Some _ => true | None => false end) eqn:EX.
    2:{ apply (HNX c (x :: h :: t) eq_refl). intros x' h' t' H. injection H as <- <- <-. exact EX. }
    cbn [strto_prefix]. rewrite EX. apply andb_prop in EX. destruct EX as [EX EH]. apply andb_prop in EX. destruct EX as [EX EXX]. apply andb_prop in EX. destruct EX as [EB EC].
    assert (base = 0 \/ base = 16) as HB by lia. apply N.eqb_eq in EC. subst c.
    cbv iota beta. rewrite usc_digits. split.
    + intros HD. eapply mag_hex; [exact HB|unfold is_x in EXX|reflexivity|exact HD]. lia.
    + assert (forall b, b <= 16 -> ~ digits b (48 :: x :: h :: t) v) as HN.
      { intros b Hb HD. apply digits_second in HD. destruct HD as [d HD]. rewrite (digit_in_x b x Hb EXX) in HD. discriminate. }
      intros [HB' HD|p q HB' Hp HS HD|q HB' HS HD|c q HB' HC HS HD].
      * exfalso. apply (HN base); [lia|exact HD].
      * injection HS as -> ->. exact HD.
      * exfalso. apply (HN 8); [lia|exact HD].
      * exfalso. apply (HN 10); [lia|exact HD].
Qed.
Lemma skip_space_spec ws t : Forall is_space ws -> match t with c :: _ => ~ is_space c | [] => True end -> skip_space (ws ++ t) = t.
Proof.
  intros H HT. induction H as [|c ws HC H IH]; cbn [app].
  - destruct t as [|c t]; [reflexivity|]. cbn [skip_space]. rewrite <- isspace_spec in HT. destruct (isspace c); [exfalso; auto|reflexivity].
  - cbn [skip_space]. apply isspace_spec in HC. rewrite HC. exact IH.
Qed.
Lemma skip_space_inv s : exists ws, s = ws ++ skip_space s /\ Forall is_space ws.
Proof.
  induction s as [|c s (ws & E & H)]; cbn [skip_space]; [exists []; auto|].
  destruct (isspace c) eqn:EC; [|exists []; auto]. exists (c :: ws). split; [cbn [app]; congruence|constructor; [apply isspace_spec, EC|exact H]].
Qed.
Lemma magnitude_head base s v : magnitude base s v -> exists c q, s = c :: q /\ ~ is_space c /\ c <> 45 /\ c <> 43.
Proof.
  assert (forall b s v, digits b s v -> exists c q, s = c :: q /\ ~ is_space c /\ c <> 45 /\ c <> 43) as HD.
  { intros b s' v' H. destruct s' as [|c q]; [apply digits_all in H; destruct H; congruence|]. exists c, q. split; [reflexivity|].
    apply digits_head in H. destruct H as [d H]. apply digit_in_spec in H. unfold is_digit_of in H. unfold is_space. lia. }
  intros [HB H|p q HB Hp HS H|q HB HS H|c q HB HC HS H]; try (eapply HD; exact H).
  exists 48, (p :: q). split; [exact HS|]. unfold is_space. lia.
Qed.
Theorem strto_scan_spec base s neg v : strto_scan base s = Some (neg, v, []) <-> integer base s neg v.
Proof.
  unfold strto_scan.
  assert (forall t, (let '(b, s0) := strto_prefix base t in match s0 with
     | [] => None | c :: _ => match digit_in b c with Some _ => let '(v, rest) := scan_digits b 0 s0 in Some (false, v, rest) | None => None end end) =
     option_map (fun vr : N * bytes => (false, fst vr, snd vr)) (unsigned_scan base t) /\
     (let '(b, s0) := strto_prefix base t in match s0 with
     | [] => None | c :: _ => match digit_in b c with Some _ => let '(v, rest) := scan_digits b 0 s0 in Some (true, v, rest) | None => None end end) =
     option_map (fun vr : N * bytes => (true, fst vr, snd vr)) (unsigned_scan base t)) as HU.
  { intros t. unfold unsigned_scan, usc. destruct (strto_prefix base t) as [b [|c q]]; [auto|]. destruct (digit_in b c); [|auto].
    destruct (scan_digits b 0 (c :: q)); auto. }
  assert (forall nb t, option_map (fun vr : N * bytes => (nb, fst vr, snd vr)) (unsigned_scan base t) = Some (neg, v, []) <-> nb = neg /\ magnitude base t v) as HM.
  { intros nb t. rewrite <- unsigned_scan_spec. destruct (unsigned_scan base t) as [[v' r]|]; cbn [option_map fst snd]; split; try discriminate.
    - intros H. injection H as -> -> ->. auto.
    - intros [-> H]. injection H as -> ->. reflexivity.
    - intros [_ H]. discriminate. }
  split.
  - intros H. destruct (skip_space_inv s) as (ws & ES & HW). destruct (skip_space s) as [|c q].
    { destruct (HU []) as [HU1 _]. rewrite HU1, HM in H. destruct H as [_ H]. apply magnitude_head in H. destruct H as (? & ? & ? & _). discriminate. }
    destruct (c =? 45) eqn:E45; [|destruct (c =? 43) eqn:E43].
    + destruct (HU q) as [_ HU2]. rewrite HU2, HM in H. destruct H as [<- H]. apply N.eqb_eq in E45. subst c.
      apply (integer_intro base s true v ws [45] q HW); auto.
    + destruct (HU q) as [HU1 _]. rewrite HU1, HM in H. destruct H as [<- H]. apply N.eqb_eq in E43. subst c.
      apply (integer_intro base s false v ws [43] q HW); auto.
    + destruct (HU (c :: q)) as [HU1 _]. rewrite HU1, HM in H. destruct H as [<- H].
      apply (integer_intro base s false v ws [] (c :: q) HW); auto.
  - intros [ws sg m HW HS Hm ->]. destruct (magnitude_head base m v Hm) as (c & q & -> & Hc & Hc1 & Hc2).
    destruct HS as [[-> [-> | ->]]|[-> ->]]; cbn [app].
    + rewrite skip_space_spec by assumption. destruct (c =? 45) eqn:E1; [lia|]. destruct (c =? 43) eqn:E2; [lia|].
      destruct (HU (c :: q)) as [HU1 _]. rewrite HU1, HM. auto.
    + rewrite skip_space_spec by (try assumption; unfold is_space; lia). change (43 =? 45) with false. change (43 =? 43) with true. cbv iota.
      destruct (HU (c :: q)) as [HU1 _]. rewrite HU1, HM. auto.
    + rewrite skip_space_spec by (try assumption; unfold is_space; lia). change (45 =? 45) with true. cbv iota.
      destruct (HU (c :: q)) as [_ HU2]. rewrite HU2, HM. auto.
Qed.

(** ** C37 *)
Definition fits_type (bits z : Z) : Prop := (- 2 ^ (bits - 1) <= z < 2 ^ (bits - 1))%Z.
(** Signed variables: success exactly for a number in range, which is stored. *)
Theorem C37_signed bits s min max base x : (0 < bits <= 64)%Z -> fits_type bits min -> fits_type bits max ->
  PARSENUM_signed bits s min max base = (x, 0) <->
  exists neg v, integer base s neg v /\ (min <= signed neg v <= max)%Z /\ x = signed neg v.
Proof.
  unfold fits_type. intros HB H1 H2. unfold PARSENUM_signed, parsenum_signed, strtoimax.
  assert (2 ^ (bits - 1) <= 2 ^ 63)%Z as HP by (apply Z.pow_le_mono_r; lia).
  destruct (strto_scan base s) as [[[neg v] rest]|] eqn:ES.
  2:{ split; [intros H; discriminate|]. intros (neg & v & HI & _). apply strto_scan_spec in HI. congruence. }
  assert (forall neg' v', integer base s neg' v' -> rest = [] /\ neg' = neg /\ v' = v) as HU.
  { intros neg' v' HI. apply strto_scan_spec in HI. repeat split; congruence. }
  fold (signed neg v). cbv zeta.
  assert (forall A (a b c : A), (if (INTMAX_MAX <? signed neg v)%Z then a else if (signed neg v <? INTMAX_MIN)%Z then b else c) = 
    if (INTMAX_MAX <? signed neg v)%Z then a else if (signed neg v <? INTMAX_MIN)%Z then b else c) as _ by reflexivity.
  destruct rest as [|rc rt].
  2:{ destruct (INTMAX_MAX <? signed neg v)%Z; [|destruct (signed neg v <? INTMAX_MIN)%Z]; cbn [negb andb]; (split; [intros H; discriminate|intros (n' & v' & HI & _); destruct (HU n' v' HI); discriminate]). }
  apply strto_scan_spec in ES.
  destruct (INTMAX_MAX <? signed neg v)%Z eqn:EA; [|destruct (signed neg v <? INTMAX_MIN)%Z eqn:EC]; cbn [negb andb errno_of].
  - unfold INTMAX_MAX in *. split.
    + destruct ((2 ^ 63 - 1 <? min)%Z || (max <? 2 ^ 63 - 1)%Z); intros H; discriminate.
    + intros (n' & v' & HI & HR & _). destruct (HU n' v' HI) as (_ & -> & ->). lia.
  - unfold INTMAX_MIN in *. split.
    + destruct ((- 2 ^ 63 <? min)%Z || (max <? - 2 ^ 63)%Z); intros H; discriminate.
    + intros (n' & v' & HI & HR & _). destruct (HU n' v' HI) as (_ & -> & ->). lia.
  - destruct ((signed neg v <? min)%Z || (max <? signed neg v)%Z) eqn:EM.
    + split; [intros H; discriminate|]. intros (n' & v' & HI & HR & _). destruct (HU n' v' HI) as (_ & -> & ->). lia.
    + assert ((- 2 ^ (bits - 1) <=? signed neg v)%Z && (signed neg v <? 2 ^ (bits - 1))%Z = true) as -> by lia. split.
      * intros H. assert (x = signed neg v) as -> by congruence. exists neg, v. split; [exact ES|]. split; [lia|reflexivity].
      * intros (n' & v' & HI & _ & ->). destruct (HU n' v' HI) as (_ & -> & ->). reflexivity.
Qed.
Print Assumptions C37_signed.
(** Unsigned variables: exact condition.  A minus sign negates modulo 2^64. *)
Theorem C37_unsigned bits s min max base x : bits <= 64 -> (min < 2 ^ 64)%Z -> (- 2 ^ 63 <= max < 2 ^ 64)%Z ->
  PARSENUM_unsigned bits s min max base = (x, 0) <->
  exists neg v, integer base s neg v /\ v < 2 ^ 64 /\ (min <= Z.of_N (wrapped neg v) <= max)%Z /\ wrapped neg v < 2 ^ bits /\ x = wrapped neg v.
Proof.
  intros HB H1 H2. unfold PARSENUM_unsigned, parsenum_unsigned, strtoumax.
  assert (2 ^ bits <= 2 ^ 64) as HP by (apply N.pow_le_mono_r; lia).
  assert (2 ^ bits <> 0) as HP0 by (apply N.pow_nonzero; lia).
  assert (forall x : N, ((if (max <=? INTMAX_MAX)%Z then if (max <? 0)%Z && (x =? 0) then ERANGE else x else x) = 0 <-> x = 0 /\ (0 <= max)%Z)) as HE.
  { intros y. unfold INTMAX_MAX, ERANGE. destruct (max <=? 2 ^ 63 - 1)%Z eqn:E1; [|split; lia]. destruct ((max <? 0)%Z && (y =? 0)) eqn:E2; split; lia. }
  destruct (strto_scan base s) as [[[neg v] rest]|] eqn:ES.
  2:{ split; [|intros (neg & v & HI & _); apply strto_scan_spec in HI; congruence].
      intros H. injection H as _ H. apply HE in H. destruct H as [H _]. discriminate H. }
  assert (forall neg' v', integer base s neg' v' -> rest = [] /\ neg' = neg /\ v' = v) as HU.
  { intros neg' v' HI. apply strto_scan_spec in HI. repeat split; congruence. }
  destruct rest as [|rc rt].
  2:{ destruct (UINTMAX_MAX <? v); cbn [negb andb]; (split; [|intros (n' & v' & HI & _); destruct (HU n' v' HI); discriminate]);
      intros H; injection H as _ H; apply HE in H; destruct H as [H _]; discriminate H. }
  apply strto_scan_spec in ES.
  assert (UINTMAX_MAX = 2 ^ 64 - 1) as HM by reflexivity.
  destruct (UINTMAX_MAX <? v) eqn:EA; cbn [negb andb errno_of].
  - split; [|intros (n' & v' & HI & HR & _); destruct (HU n' v' HI) as (_ & -> & ->); lia].
    destruct ((UINTMAX_MAX <? (if (min <=? 0)%Z then 0 else to_uintmax min)) || (to_uintmax max <? UINTMAX_MAX) || (2 ^ bits - 1 <? UINTMAX_MAX));
      intros H; injection H as _ H; apply HE in H; destruct H as [H _]; discriminate H.
  - assert ((if neg then w64 (2 ^ 64 - v) else v) = wrapped neg v) as -> by (unfold wrapped; rewrite w64_mod; reflexivity).
    assert (wrapped neg v < 2 ^ 64) as HW by (unfold wrapped; destruct neg; [apply N.mod_lt; lia|lia]).
    assert ((0 <= max)%Z -> Z.of_N (to_uintmax max) = max) as HMX by (intros Hm; unfold to_uintmax; rewrite Z.mod_small by lia; lia).
    assert ((0 < min)%Z -> Z.of_N (to_uintmax min) = min) as HMN by (intros Hm; unfold to_uintmax; rewrite Z.mod_small by lia; lia).
    set (w := wrapped neg v) in *.
    assert (exists mn, (if (min <=? 0)%Z then 0 else to_uintmax min) = mn /\ ((Z.of_N mn <= Z.of_N w)%Z <-> (min <= Z.of_N w)%Z)) as (mn & -> & HMN').
    { destruct (min <=? 0)%Z eqn:EM; eexists; (split; [reflexivity|]); [lia|rewrite HMN by lia; lia]. }
    destruct ((w <? mn) || (to_uintmax max <? w) || (2 ^ bits - 1 <? w)) eqn:EC.
    + split.
      * intros H. injection H as _ H. apply HE in H. destruct H as [H _]. discriminate H.
      * intros (n' & v' & HI & HR & HR2 & HR3 & _). destruct (HU n' v' HI) as (_ & -> & ->). fold w in HR2, HR3. lia.
    + split.
      * intros H. injection H as <- H. apply HE in H. exists neg, v. fold w. split; [exact ES|]. split; [lia|]. split; [lia|]. split; [lia|]. apply N.mod_small. lia.
      * intros (n' & v' & HI & HR & HR2 & HR3 & ->). destruct (HU n' v' HI) as (_ & -> & ->). fold w. fold w in HR2, HR3. f_equal; [apply N.mod_small; lia|apply HE; lia].
Qed.
Print Assumptions C37_unsigned.
(** So for text without a minus sign the documented condition is exact. *)
Theorem C37_unsigned_exact bits s min max base x : bits <= 64 -> (min < 2 ^ 64)%Z -> (- 2 ^ 63 <= max < 2 ^ 64)%Z -> ~ In 45 s ->
  PARSENUM_unsigned bits s min max base = (x, 0) <->
  exists neg v, integer base s neg v /\ (min <= signed neg v <= max)%Z /\ v < 2 ^ bits /\ x = v.
Proof.
  intros HB H1 H2 HN. rewrite C37_unsigned by assumption.
  assert (forall neg v, integer base s neg v -> neg = false) as HF.
  { intros neg v [ws sg m _ [[-> _]|[-> ->]] _ ->]; [reflexivity|]. exfalso. apply HN. apply in_or_app. right. left. reflexivity. }
  assert (2 ^ bits <= 2 ^ 64) as HP by (apply N.pow_le_mono_r; lia).
  split; intros (neg & v & HI & H); pose proof (HF neg v HI); subst neg; exists false, v; cbn [wrapped signed] in *; repeat split; try exact HI; lia.
Qed.
Print Assumptions C37_unsigned_exact.
(** Nothing outside the range or the type is ever stored with success. *)
Theorem C37_unsigned_range bits s min max base x : bits <= 64 -> (min < 2 ^ 64)%Z -> (- 2 ^ 63 <= max < 2 ^ 64)%Z ->
  PARSENUM_unsigned bits s min max base = (x, 0) -> (min <= Z.of_N x <= max)%Z /\ x < 2 ^ bits.
Proof. intros HB H1 H2 H. apply C37_unsigned in H; try assumption. destruct H as (neg & v & _ & _ & H & H' & ->). auto. Qed.
Print Assumptions C37_unsigned_range.
(** The documentation's condition fails: "-18446744073709551615" is accepted as
    1 for a variable ranging over 1..32. *)
Theorem C37_unsigned_refuted : exists s v, integer 0 s true v /\ (signed true v < 1)%Z /\ PARSENUM_unsigned 32 s 1 32 0 = (1, 0).
Proof.
  exists [45; 49; 56; 52; 52; 54; 55; 52; 52; 48; 55; 51; 55; 48; 57; 53; 53; 49; 54; 49; 53], 18446744073709551615.
  split; [apply strto_scan_spec; vm_compute; reflexivity|]. split; [reflexivity|vm_compute; reflexivity].
Qed.
Print Assumptions C37_unsigned_refuted.
(** A rejected string never yields success, and the reason is EINVAL exactly
    when the text is not a number. *)
Theorem C37_unsigned_errno bits s min max base x e : PARSENUM_unsigned bits s min max base = (x, e) ->
  e = 0 \/ e = EINVAL \/ e = ERANGE.
Proof.
  unfold PARSENUM_unsigned, parsenum_unsigned, strtoumax, errno_of.
  assert (forall y, y = 0 \/ y = EINVAL \/ y = ERANGE -> (if (max <=? INTMAX_MAX)%Z then if (max <? 0)%Z && (y =? 0) then ERANGE else y else y) = 0 \/
     (if (max <=? INTMAX_MAX)%Z then if (max <? 0)%Z && (y =? 0) then ERANGE else y else y) = EINVAL \/ (if (max <=? INTMAX_MAX)%Z then if (max <? 0)%Z && (y =? 0) then ERANGE else y else y) = ERANGE) as HE.
  { intros y Hy. destruct (max <=? INTMAX_MAX)%Z; [|exact Hy]. destruct ((max <? 0)%Z && (y =? 0)); auto. }
  destruct (strto_scan base s) as [[[neg v] rest]|]; [|intros H; injection H as <- <-; apply HE; auto].
  destruct (UINTMAX_MAX <? v); (destruct (negb false && negb match rest with [] => true | _ => false end); [intros H; injection H as <- <-; apply HE; auto|]).
  - match goal with |- context [if ?c then _ else _] => destruct c end; intros H; injection H as <- <-; apply HE; auto.
  - match goal with |- context [(if ?c || ?d || ?f then _ else _)] => destruct (c || d || f) end; intros H; injection H as <- <-; apply HE; auto.
Qed.
Theorem C37_not_a_number bits s min max base x e : (forall neg v, ~ integer base s neg v) ->
  PARSENUM_unsigned bits s min max base = (x, e) -> e = EINVAL.
Proof.
  intros HN. unfold PARSENUM_unsigned, parsenum_unsigned, strtoumax.
  assert ((if (max <=? INTMAX_MAX)%Z then if (max <? 0)%Z && (EINVAL =? 0) then ERANGE else EINVAL else EINVAL) = EINVAL) as HE.
  { destruct (max <=? INTMAX_MAX)%Z; [|reflexivity]. change (EINVAL =? 0) with false. rewrite andb_false_r. reflexivity. }
  destruct (strto_scan base s) as [[[neg v] [|rc rt]]|] eqn:ES.
  - apply strto_scan_spec in ES. exfalso. eapply HN, ES.
  - destruct (UINTMAX_MAX <? v); cbn [negb andb]; intros H; injection H as _ <-; exact HE.
  - intros H. injection H as _ <-. exact HE.
Qed.
Print Assumptions C37_not_a_number.
(** No bounds given: the limits are those of the type. *)
Theorem C37_nobounds bits s base : bits <= 64 -> PARSENUM_unsigned_nobounds bits s base = PARSENUM_unsigned bits s 0 (Z.of_N (2 ^ bits - 1)) base.
Proof.
  intros HB. assert (2 ^ bits <= 2 ^ 64) as HP by (apply N.pow_le_mono_r; lia). assert (2 ^ bits <> 0) as HP0 by (apply N.pow_nonzero; lia).
  unfold PARSENUM_unsigned_nobounds, PARSENUM_unsigned. change (0 <=? 0)%Z with true. cbv iota.
  assert (to_uintmax (Z.of_N (2 ^ bits - 1)) = 2 ^ bits - 1) as -> by (unfold to_uintmax; rewrite Z.mod_small; lia).
  destruct (parsenum_unsigned s 0 (2 ^ bits - 1) (2 ^ bits - 1) base false) as [v e]. f_equal.
  destruct (Z.of_N (2 ^ bits - 1) <=? INTMAX_MAX)%Z; [|reflexivity]. assert ((Z.of_N (2 ^ bits - 1) <? 0)%Z = false) as -> by lia. reflexivity.
Qed.
Print Assumptions C37_nobounds.
(** Floating point: success means that all of the text was converted, without
    range error, to a value not below min and not above max -- which NaN is. *)
Theorem C37_float strtod s min max x : PARSENUM_float strtod s min max = (x, 0) <->
  exists n e, strtod s = (x, n, e) /\ errno_of e = 0 /\ n <> 0%nat /\ n = length s /\ dlt x min = false /\ dlt max x = false.
Proof.
  unfold PARSENUM_float, parsenum_float. destruct (strtod s) as [[v n] e]. cbn [negb andb].
  destruct (Nat.eqb n 0) eqn:E1; cbn [orb].
  - apply Nat.eqb_eq in E1. split; [intros H; discriminate|]. intros (n' & e' & H & _ & HN & _). congruence.
  - apply Nat.eqb_neq in E1. destruct (Nat.eqb n (length s)) eqn:E2; cbn [negb].
    + apply Nat.eqb_eq in E2. destruct (dlt v min || dlt max v) eqn:E3.
      * split; [intros H; discriminate|]. intros (n' & e' & H & _ & _ & _ & H1 & H2). assert (v = x) as -> by congruence. rewrite H1, H2 in E3. discriminate.
      * apply orb_false_elim in E3. split.
        -- intros H. injection H as -> H. exists n, e. tauto.
        -- intros (n' & e' & H & HE & _). congruence.
    + apply Nat.eqb_neq in E2. split; [intros H; discriminate|]. intros (n' & e' & H & _ & _ & HN & _). congruence.
Qed.
Print Assumptions C37_float.
Theorem C37_float_refuted strtod : strtod [110; 97; 110] = (dnan, 3%nat, None) ->
  forall min max, PARSENUM_float strtod [110; 97; 110] min max = (dnan, 0).
Proof. intros H min max. unfold PARSENUM_float, parsenum_float. rewrite H. destruct min, max; reflexivity. Qed.
Print Assumptions C37_float_refuted.
Example C37_hyps :
  PARSENUM_unsigned 32 [32; 48; 120; 49; 70] 1 32 0 = (31, 0) /\          (* " 0x1F" *)
  PARSENUM_signed 32 [45; 48; 49; 55] (-20) 5 0 = ((-15)%Z, 0) /\           (* "-017" *)
  PARSENUM_unsigned 32 [51; 51] 1 32 0 = (33, ERANGE) /\                    (* "33" *)
  PARSENUM_unsigned 32 [56; 32] 1 32 0 = (8, EINVAL).                       (* "8 " *)
Proof. vm_compute. auto. Qed.
Definition Prop_parsenum_all := (C37_signed, C37_unsigned, C37_unsigned_exact, C37_unsigned_range, C37_unsigned_refuted, C37_unsigned_errno, C37_not_a_number, C37_nobounds, C37_float, C37_float_refuted).
Print Assumptions Prop_parsenum_all.
