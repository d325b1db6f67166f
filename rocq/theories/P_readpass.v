(** Facts about fgets and the reading loop of readpass. *)
From Coq Require Import String.
From Verif Require Import Base SpecAscii M_stdio SpecStream P_stdio M_readpass SpecPass P_signals.
Local Open Scope list_scope.

(** ** fgetc and fgets on any stream *)
Lemma fgetc_char s c s' : fgetc s = (G_char c, s') ->
  all_data s = c :: all_data s' /\ (in_size s' < in_size s)%nat.
Proof.
  unfold fgetc, all_data, in_size. destruct (i_pieces s) as [|[[|x [|y d]] [|]] t] eqn:E; intros H; try discriminate;
    injection H as -> <-; cbn [i_pieces map concat fst fold_right app length] in *; split; try reflexivity; try lia.
Qed.
Lemma fgetc_nochar s r s' : fgetc s = (r, s') -> (forall c, r <> G_char c) ->
  all_data s = all_data s' /\ (in_size s' <= in_size s)%nat /\ (r = G_err -> i_err s' = true) /\ (r = G_eof -> i_err s' = i_err s).
Proof.
  unfold fgetc, all_data, in_size. intros H Hr. destruct (i_pieces s) as [|[[|x [|y d]] [|]] t] eqn:E;
    injection H as <- <-; try (exfalso; eapply Hr; reflexivity); cbn [i_pieces map concat fst fold_right app length i_err];
    rewrite ?E; cbn [i_pieces map concat fst fold_right app length i_err]; repeat split; try lia; try reflexivity; discriminate.
Qed.
Lemma fgets_loop_any : forall k s x st s', fgets_loop k s = (x, st, s') ->
  all_data s = x ++ all_data s' /\ (length x <= k)%nat /\ (in_size s' + length x <= in_size s)%nat /\ (forall c, st <> Some (G_char c)) /\
  (st = None -> x = [] -> k = 0%nat).
Proof.
  induction k as [|k IH]; intros s x st s' H; cbn [fgets_loop] in H.
  - injection H as <- <- <-. cbn [app length]; repeat split; try discriminate; try reflexivity; lia.
  - destruct (fgetc s) as [r s1] eqn:E. destruct r as [c| |].
    + destruct (fgetc_char _ _ _ E) as [E1 E2]. destruct (c =? newline).
      * injection H as <- <- <-. repeat split; try discriminate; [exact E1|cbn; lia|cbn [length]; lia].
      * destruct (fgets_loop k s1) as [[x' st'] s''] eqn:EL. injection H as <- <- <-.
        destruct (IH _ _ _ _ EL) as (H1 & H2 & H3 & H4 & H5). cbn [app length]. rewrite E1, H1. repeat split; try lia; try exact H4.
        discriminate.
    + destruct (fgetc_nochar _ _ _ E) as (E1 & E2 & _ & _); [discriminate|]. injection H as <- <- <-.
      cbn [app length]. repeat split; try discriminate; try lia; exact E1.
    + destruct (fgetc_nochar _ _ _ E) as (E1 & E2 & _ & _); [discriminate|]. injection H as <- <- <-.
      cbn [app length]. repeat split; try discriminate; try lia; exact E1.
Qed.
Lemma fgets_some n s x s' : (2 <= n)%nat -> fgets n s = (Some x, s') ->
  all_data s = x ++ all_data s' /\ (length x < n)%nat /\ x <> [] /\ (in_size s' < in_size s)%nat.
Proof.
  intros Hn. unfold fgets. destruct (fgets_loop (n - 1) s) as [[y st] s1] eqn:E.
  destruct (fgets_loop_any _ _ _ _ _ E) as (H1 & H2 & H3 & H4 & H5). intros H.
  assert (x = y /\ s' = s1 /\ x <> []) as (-> & -> & Hx).
  { destruct st as [[c| |]|].
    - destruct (H4 c eq_refl).
    - destruct y; [discriminate|]. injection H as <- <-. repeat split. discriminate.
    - discriminate.
    - injection H as <- <-. repeat split. intros ->. specialize (H5 eq_refl eq_refl). lia. }
  split; [exact H1|]. split; [lia|]. split; [exact Hx|]. destruct y; [congruence|]. cbn [length] in H3. lia.
Qed.
Lemma fgets_none n s s' : fgets n s = (None, s') -> (in_size s' <= in_size s)%nat.
Proof.
  unfold fgets. destruct (fgets_loop (n - 1) s) as [[y st] s1] eqn:E.
  destruct (fgets_loop_any _ _ _ _ _ E) as (H1 & H2 & H3 & H4 & H5). intros H.
  assert (s' = s1) as ->. { destruct st as [[| |]|]; destruct y; injection H; congruence. } lia.
Qed.
Lemma maxpass : (2 <= MAXPASSLEN)%nat.
Proof. unfold MAXPASSLEN. lia. Qed.

(** The retry loop never runs out of fuel, whatever the stream. *)
Lemma retry_total tty pr conf : forall fuel s, (in_size s <= fuel)%nat -> exists r, readpass_retry fuel tty pr conf s = Some r.
Proof.
  induction fuel as [|fuel IH]; intros s Hf; [unfold in_size in Hf; lia|]. cbn [readpass_retry].
  destruct (fgets MAXPASSLEN s) as [[x|] s1] eqn:E1; [|eexists; reflexivity].
  destruct conf as [cp|]; [|eexists; reflexivity].
  destruct (fgets MAXPASSLEN s1) as [[y|] s2] eqn:E2; [|eexists; reflexivity].
  destruct (list_eqb (cstr x) (cstr y)); [eexists; reflexivity|].
  destruct (fgets_some _ _ _ _ maxpass E1) as (_ & _ & _ & L1). destruct (fgets_some _ _ _ _ maxpass E2) as (_ & _ & _ & L2).
  destruct (IH s2 ltac:(lia)) as [[[r s3] tr] ->]. eexists; reflexivity.
Qed.
Ltac qq := repeat first [assumption | match goal with H : forall t : bytes, Forall quiet _ |- _ => apply H end | apply Forall_nil | (apply Forall_cons; [exact I|]) | (apply Forall_app; split)].
Lemma retry_quiet tty pr conf : forall fuel s r s' tr, readpass_retry fuel tty pr conf s = Some (r, s', tr) -> Forall quiet tr.
Proof.
  induction fuel as [|fuel IH]; intros s r s' tr; [discriminate|]. cbn [readpass_retry].
  assert (forall t : bytes, Forall quiet (if tty then [A_prompt t] else [])) as Hp by (intros t; destruct tty; repeat constructor).
  destruct (fgets MAXPASSLEN s) as [[x|] s1] eqn:E1.
  - destruct conf as [cp|].
    + destruct (fgets MAXPASSLEN s1) as [[y|] s2] eqn:E2.
      * destruct (list_eqb (cstr x) (cstr y)).
        -- intros H. injection H as <- <- <-. 
           qq.
        -- destruct (readpass_retry fuel tty pr (Some cp) s2) as [[[r0 s3] tr0]|] eqn:E3; [|discriminate].
           intros H. injection H as <- <- <-. specialize (IH _ _ _ _ E3).
           qq.
      * intros H. injection H as <- <- <-. qq.
    + intros H. injection H as <- <- <-. qq.
  - intros H. injection H as <- <- <-. qq.
Qed.
(** What the loop returns was read, and with confirmation twice in succession. *)
Lemma retry_some tty pr conf : forall fuel s p s' tr, readpass_retry fuel tty pr conf s = Some (Some p, s', tr) ->
  (length p < MAXPASSLEN)%nat /\ exists a q b, all_data s = a ++ p ++ q ++ b /\ b = all_data s' /\
  match conf with None => a = [] /\ q = [] | Some _ => cstr q = cstr p end.
Proof.
  induction fuel as [|fuel IH]; intros s p s' tr; [discriminate|]. cbn [readpass_retry].
  destruct (fgets MAXPASSLEN s) as [[x|] s1] eqn:E1; [|discriminate].
  destruct (fgets_some _ _ _ _ maxpass E1) as (D1 & L1 & _ & _).
  destruct conf as [cp|].
  - destruct (fgets MAXPASSLEN s1) as [[y|] s2] eqn:E2; [|discriminate].
    destruct (fgets_some _ _ _ _ maxpass E2) as (D2 & L2 & _ & _).
    destruct (list_eqb (cstr x) (cstr y)) eqn:Ec.
    + intros H. injection H as <- <- <-. split; [exact L1|]. exists [], y, (all_data s2). cbn [app]. rewrite D1, D2.
      apply list_eqb_spec in Ec. repeat split. symmetry; exact Ec.
    + destruct (readpass_retry fuel tty pr (Some cp) s2) as [[[r0 s3] tr0]|] eqn:E3; [|discriminate].
      intros H. injection H as -> <- <-. destruct (IH _ _ _ _ E3) as (H1 & a & q & b & H2 & H3 & H4).
      split; [exact H1|]. exists (x ++ y ++ a), q, b. rewrite D1, D2, H2, <- !app_assoc. repeat split; assumption.
  - intros H. injection H as <- <- <-. split; [exact L1|]. exists [], [], (all_data s1). cbn [app]. repeat split. exact D1.
Qed.

(** ** Delivered streams *)
Lemma delivered_nil s : delivered [] s -> i_pieces s = [].
Proof.
  intros (_ & Hp & Hc). destruct (i_pieces s) as [|[d e] t]; [reflexivity|]. inversion Hp as [|? ? [H1 _] _]. cbn [fst] in H1.
  cbn [map concat fst] in Hc. apply app_eq_nil in Hc. destruct Hc; congruence.
Qed.
Lemma fgetc_delivered_nil s : delivered [] s -> fgetc s = (G_eof, s).
Proof. intros H. unfold fgetc. rewrite (delivered_nil _ H). reflexivity. Qed.
Lemma fgetc_delivered_cons c t s : delivered (c :: t) s -> exists s', fgetc s = (G_char c, s') /\ delivered t s'.
Proof.
  intros (He & Hp & Hc). unfold fgetc. destruct (i_pieces s) as [|[d e] ps]; [discriminate|].
  inversion Hp as [|? ? [H1 H2] Hp']; subst. cbn [fst snd] in *. subst e. cbn [map concat fst] in Hc.
  destruct d as [|x d]; [congruence|]. cbn [app] in Hc. injection Hc as -> Hc. destruct d as [|y d].
  - eexists; split; [reflexivity|]. split; [exact He|]. split; [exact Hp'|exact Hc].
  - eexists; split; [reflexivity|]. split; [exact He|]. split; [|exact Hc]. constructor; [split; [discriminate|reflexivity]|exact Hp'].
Qed.
(** The record fgets reads from [d] into a buffer for k characters. *)
Fixpoint rec_of (k : nat) (d : bytes) : bytes :=
  match k, d with
  | O, _ => []
  | _, [] => []
  | S k', c :: t => if c =? newline then [c] else c :: rec_of k' t
  end.
Lemma fgets_loop_delivered : forall k d s, delivered d s ->
  exists st s', fgets_loop k s = (rec_of k d, st, s') /\ delivered (skipn (length (rec_of k d)) d) s' /\
  (st = None \/ st = Some G_eof) /\ (st = Some G_eof -> rec_of k d = d).
Proof.
  induction k as [|k IH]; intros d s Hd; cbn [fgets_loop rec_of].
  - exists None, s. split; [reflexivity|]. split; [exact Hd|]. split; [left; reflexivity|discriminate].
  - destruct d as [|c t].
    + rewrite (fgetc_delivered_nil _ Hd). exists (Some G_eof), s. split; [reflexivity|]. split; [exact Hd|]. split; [right; reflexivity|reflexivity].
    + destruct (fgetc_delivered_cons _ _ _ Hd) as (s1 & -> & Hd1). destruct (c =? newline).
      * exists None, s1. split; [reflexivity|]. split; [exact Hd1|]. split; [left; reflexivity|discriminate].
      * destruct (IH t s1 Hd1) as (st & s' & E & H1 & H2 & H3). rewrite E. exists st, s'. split; [reflexivity|].
        split; [exact H1|]. split; [exact H2|]. intros Hst. rewrite (H3 Hst). reflexivity.
Qed.
Lemma fgets_delivered n d s : (2 <= n)%nat -> delivered d s ->
  exists s', fgets n s = ((match d with [] => None | _ => Some (rec_of (n - 1) d) end), s') /\
  delivered (skipn (length (rec_of (n - 1) d)) d) s'.
Proof.
  intros Hn Hd. destruct (fgets_loop_delivered (n - 1) d s Hd) as (st & s' & E & H1 & H2 & H3).
  unfold fgets. rewrite E. exists s'. split; [|exact H1]. destruct (n - 1)%nat as [|k] eqn:En; [lia|].
  destruct d as [|c t].
  - cbn [rec_of fgets_loop] in *. rewrite (fgetc_delivered_nil _ Hd) in E. injection E as <- _. reflexivity.
  - destruct H2 as [->| ->]; [reflexivity|]. destruct (rec_of (S k) (c :: t)) as [|z zs] eqn:Er; [|reflexivity].
    cbn [rec_of] in Er. destruct (c =? newline); discriminate.
Qed.

(** ** Lines *)
Lemma lines_concat d : concat (lines d) = d.
Proof.
  induction d as [|c t IH]; [reflexivity|]. cbn [lines]. destruct (c =? newline) eqn:E; cbn [concat app].
  - rewrite IH. reflexivity.
  - destruct (lines t) as [|l ls]; cbn [concat app] in *; rewrite <- IH; reflexivity.
Qed.
Lemma lines_cons d l ls : lines d = l :: ls -> d = l ++ concat ls /\ ls = lines (concat ls) /\ l <> [].
Proof.
  revert l ls. induction d as [|c t IH]; intros l ls; [discriminate|]. cbn [lines]. destruct (c =? newline) eqn:E.
  - intros H. injection H as <- <-. rewrite lines_concat. split; [reflexivity|]. split; [reflexivity|discriminate].
  - destruct (lines t) as [|l' ls'] eqn:El.
    + intros H. injection H as <- <-. pose proof (lines_concat t) as HC. rewrite El in HC. cbn in HC. subst t. split; [reflexivity|]. split; [reflexivity|discriminate].
    + intros H. injection H as <- <-. destruct (IH _ _ eq_refl) as (H1 & H2 & _). split; [cbn [app]; rewrite H1 at 1; reflexivity|]. split; [exact H2|discriminate].
Qed.
Lemma rec_line : forall k d l ls, lines d = l :: ls -> (length l <= k)%nat -> rec_of k d = l.
Proof.
  induction k as [|k IH]; intros d l ls Hl Hk.
  - destruct (lines_cons _ _ _ Hl) as (_ & _ & Hn). destruct l; [congruence|cbn in Hk; lia].
  - destruct d as [|c t]; [discriminate|]. cbn [lines rec_of] in *. destruct (c =? newline); [injection Hl as <- <-; reflexivity|].
    destruct (lines t) as [|l' ls'] eqn:El.
    + injection Hl as <- <-. pose proof (lines_concat t) as HC. rewrite El in HC. cbn in HC. subst t. destruct k; reflexivity.
    + injection Hl as <- <-. rewrite (IH t l' ls' El); [reflexivity|cbn [length] in Hk; lia].
Qed.
Lemma skipn_exact {A} (a b : list A) : skipn (length a) (a ++ b) = b.
Proof. rewrite skipn_app, skipn_all, Nat.sub_diag. reflexivity. Qed.
Lemma lines_nil d : lines d = [] -> d = [].
Proof. intros H. pose proof (lines_concat d) as HC. rewrite H in HC. symmetry; exact HC. Qed.

Definition short_lines (d : bytes) : Prop := Forall (fun l => (length l < MAXPASSLEN)%nat) (lines d).
Lemma fgets_line n d s l ls : (2 <= n)%nat -> delivered d s -> lines d = l :: ls -> (length l < n)%nat ->
  exists s', fgets n s = (Some l, s') /\ delivered (concat ls) s'.
Proof.
  intros Hn Hd Hl Hlen. destruct (fgets_delivered n d s Hn Hd) as (s' & E & Hd').
  rewrite (rec_line (n - 1) d l ls Hl ltac:(lia)) in E, Hd'. destruct (lines_cons _ _ _ Hl) as (H1 & _ & H3).
  exists s'. split.
  - rewrite E. destruct d; [destruct l; [congruence|discriminate]|reflexivity].
  - rewrite H1, skipn_exact in Hd'. exact Hd'.
Qed.
Lemma fgets_end n s : (2 <= n)%nat -> delivered [] s -> exists s', fgets n s = (None, s') /\ delivered [] s'.
Proof.
  intros Hn Hd. destruct (fgets_delivered n [] s Hn Hd) as (s' & E & Hd'). exists s'. split; [exact E|]. rewrite skipn_nil in Hd'. exact Hd'.
Qed.

Lemma cstr_id l : ~ In 0 l -> cstr l = l.
Proof.
  induction l as [|c t IH]; intros H; [reflexivity|]. cbn [cstr]. destruct (N.eqb_spec c 0) as [->|]; [destruct H; left; reflexivity|].
  rewrite IH; [reflexivity|]. intros Hi. apply H. right. exact Hi.
Qed.
Lemma cstr_spec l : ~ In 0 (cstr l) /\ exists r, l = cstr l ++ r /\ (r = [] \/ hd 1 r = 0).
Proof.
  induction l as [|c t [IH1 (r & IH2 & IH3)]]; [split; [intros []|exists []; auto]|]. cbn [cstr]. destruct (N.eqb_spec c 0) as [->|Hc].
  - split; [intros []|]. exists (0 :: t). auto.
  - split; [intros [H|H]; [congruence|exact (IH1 H)]|]. exists r. cbn [app]. split; [f_equal; exact IH2|exact IH3].
Qed.
Lemma crlf_text l : line_text l (before_crlf l).
Proof.
  unfold line_text. induction l as [|c t (IH1 & IH2 & r & IH3 & IH4)]; cbn [before_crlf].
  - split; [intros []|]. split; [intros []|]. exists []. auto.
  - destruct (N.eqb_spec c 13) as [->|H1]; [cbn [orb]; split; [intros []|]; split; [intros []|]; exists (13 :: t); auto|].
    destruct (N.eqb_spec c 10) as [->|H2]; cbn [orb]; [split; [intros []|]; split; [intros []|]; exists (10 :: t); auto|].
    split; [intros [H|H]; [congruence|exact (IH1 H)]|]. split; [intros [H|H]; [congruence|exact (IH2 H)]|].
    exists r. cbn [app]. split; [f_equal; exact IH3|exact IH4].
Qed.
Lemma line_text_unique l p q : line_text l p -> line_text l q -> p = q.
Proof.
  unfold line_text. revert p q. induction l as [|c t IH]; intros p q (P1 & P2 & r & P3 & P4) (Q1 & Q2 & u & Q3 & Q4).
  - symmetry in P3, Q3. apply app_eq_nil in P3, Q3. destruct P3 as [-> _], Q3 as [-> _]. reflexivity.
  - destruct p as [|x p], q as [|y q]; [reflexivity| | |].
    + cbn [app] in P3, Q3. subst r. injection Q3 as <- _. cbn [hd] in P4. exfalso.
      destruct P4 as [P4|[->| ->]]; [discriminate|apply Q1; left; reflexivity|apply Q2; left; reflexivity].
    + cbn [app] in P3, Q3. subst u. injection P3 as <- _. cbn [hd] in Q4. exfalso.
      destruct Q4 as [Q4|[->| ->]]; [discriminate|apply P1; left; reflexivity|apply P2; left; reflexivity].
    + cbn [app] in P3, Q3. injection P3 as <- P3. injection Q3 as <- Q3. f_equal. apply IH.
      * split; [intros H; apply P1; right; exact H|]. split; [intros H; apply P2; right; exact H|]. exists r. auto.
      * split; [intros H; apply Q1; right; exact H|]. split; [intros H; apply Q2; right; exact H|]. exists u. auto.
Qed.

(** The loop on a stream of ordinary lines. *)
Lemma retry_lines tty pr cp : forall fuel d s, delivered d s -> short_lines d -> ~ In 0 d -> (in_size s <= fuel)%nat ->
  (forall l, first_match (lines d) l -> exists s' tr, readpass_retry fuel tty pr (Some cp) s = Some (Some l, s', tr)) /\
  ((forall l, ~ first_match (lines d) l) -> exists s' tr, readpass_retry fuel tty pr (Some cp) s = Some (None, s', tr)).
Proof.
  induction fuel as [|fuel IH]; intros d s Hd Hs H0 Hf; [unfold in_size in Hf; lia|]. cbn [readpass_retry].
  destruct (lines d) as [|l1 ls] eqn:El.
  { rewrite (lines_nil _ El) in *. destruct (fgets_end _ s maxpass Hd) as (s' & -> & _). split; [intros l Hl; inversion Hl|]. intros _. do 2 eexists; reflexivity. }
  destruct (lines_cons _ _ _ El) as (D1 & D2 & _). unfold short_lines in Hs. rewrite El in Hs. inversion Hs as [|? ? HL1 Hs1]; subst x l.
  destruct (fgets_line _ d s l1 ls maxpass Hd El HL1) as (s1 & E1 & Hd1). rewrite E1.
  destruct ls as [|l2 ls].
  { destruct (fgets_end _ s1 maxpass Hd1) as (s' & -> & _). split; [intros l Hl; inversion Hl|]. intros _. do 2 eexists; reflexivity. }
  inversion Hs1 as [|? ? HL2 Hs2]; subst x l. symmetry in D2.
  destruct (fgets_line _ _ s1 l2 ls maxpass Hd1 D2 HL2) as (s2 & E2 & Hd2). rewrite E2.
  destruct (lines_cons _ _ _ D2) as (D3 & D4 & _).
  assert (~ In 0 l1) as Z1. { intros H. apply H0. rewrite D1. apply in_or_app. left. exact H. }
  assert (~ In 0 l2) as Z2. { intros H. apply H0. rewrite D1, D3. apply in_or_app. right. apply in_or_app. left. exact H. }
  assert (~ In 0 (concat ls)) as Z3. { intros H. apply H0. rewrite D1, D3. apply in_or_app. right. apply in_or_app. right. exact H. }
  rewrite (cstr_id l1 Z1), (cstr_id l2 Z2). destruct (list_eqb l1 l2) eqn:Ec.
  - apply list_eqb_spec in Ec. subst l2. split.
    + intros l Hl. inversion Hl; subst; [do 2 eexists; reflexivity|congruence].
    + intros H. destruct (H l1). constructor.
  - apply list_eqb_false in Ec.
    destruct (fgets_some _ _ _ _ maxpass E1) as (_ & _ & _ & S1). destruct (fgets_some _ _ _ _ maxpass E2) as (_ & _ & _ & S2).
    destruct (IH (concat ls) s2 Hd2) as [I1' I2']; [unfold short_lines; rewrite <- D4; exact Hs2|exact Z3|lia|]. rewrite <- D4 in I1', I2'.
    split.
    + intros l Hl. inversion Hl; subst; [congruence|]. match goal with H : first_match ls l |- _ => destruct (I1' l H) as (s' & tr & ->) end.
      do 2 eexists; reflexivity.
    + intros H. destruct I2' as (s' & tr & ->); [|do 2 eexists; reflexivity]. intros l Hl. apply (H l). constructor; assumption.
Qed.
