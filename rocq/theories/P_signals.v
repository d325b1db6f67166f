(** Signals during readpass: a small Hoare logic over sequences of actions. *)
From Verif Require Import Base SpecAscii M_stdio M_readpass SpecPass.

Definition answered (evs : list sev) (s : signal) : Prop :=
  forall a b, evs = a ++ Arrived s :: b -> exists t, In (Delivered s t) b.

Lemma last_split {A} (l : list A) x y a b : l ++ [x] = a ++ y :: b -> (b = [] /\ x = y /\ l = a) \/ exists b', b = b' ++ [x] /\ l = a ++ y :: b'.
Proof.
  destruct b as [|z b] using rev_ind.
  - intros H. apply app_inj_tail in H. left. destruct H. auto.
  - intros H. right. exists b. change (a ++ y :: b ++ [z]) with (a ++ (y :: b) ++ [z]) in H. rewrite app_assoc in H.
    apply app_inj_tail in H. destruct H as [-> ->]. auto.
Qed.
Lemma answered_nil s : answered [] s.
Proof. intros [|] b H; discriminate. Qed.
Lemma answered_deliv evs s t : answered (evs ++ [Delivered s t]) s.
Proof.
  intros a b H. apply last_split in H. destruct H as [(_ & H & _)|(b' & -> & _)]; [discriminate|].
  exists t. apply in_or_app. right. left. reflexivity.
Qed.
Lemma answered_other evs s e : e <> Arrived s -> answered evs s -> answered (evs ++ [e]) s.
Proof.
  intros Hne Ha a b H. apply last_split in H. destruct H as [(_ & H & _)|(b' & -> & ->)]; [congruence|].
  destruct (Ha a b' eq_refl) as [t Ht]. exists t. apply in_or_app. left. exact Ht.
Qed.

Section Signals.
  Context (ok : bool).
  Definition bad (s : signal) : Prop := In s badsigs.
  Definition I1 (evs : list sev) : Prop := forall s t, In (Delivered s t) evs -> bad s -> ok = true -> t = Term_as_found.
  Definition I3 (m : mach) : Prop := m_term m = Term_noecho -> ok = true -> forall s, bad s -> m_caught m s = true.
  Definition I4 (m : mach) : Prop := forall s, m_caught m s = true -> bad s.
  Definition I2 (m : mach) evs : Prop := forall s, answered evs s \/ (m_got m s = true /\ bad s).
  Definition Inv (m : mach) (evs : list sev) : Prop := I1 evs /\ I2 m evs /\ I3 m /\ I4 m.
  Definition old (m : mach) : Prop := ok = true -> m_term m = Term_as_found.

  Lemma set_sig_same f s v : set_sig f s v s = v.
  Proof. unfold set_sig. destruct (signal_eq_dec s s); congruence. Qed.
  Lemma set_sig_other f s v x : x <> s -> set_sig f s v x = f x.
  Proof. unfold set_sig. destruct (signal_eq_dec x s); congruence. Qed.

  (** Delivering a signal preserves the invariant. *)
  Lemma deliv_inv m evs s : m_caught m s = false -> Inv m evs -> Inv m (evs ++ [Delivered s (m_term m)]).
  Proof.
    intros Hc (H1 & H2 & H3 & H4). split; [|split; [|split; assumption]].
    - intros x t Hin Hb Hok. apply in_app_or in Hin. destruct Hin as [Hin|[Hin|[]]]; [eapply H1; eauto|].
      injection Hin as -> <-. destruct (m_term m) eqn:Et; [reflexivity|]. rewrite (H3 Et Hok x Hb) in Hc. discriminate.
    - intros x. destruct (signal_eq_dec x s) as [->|Hne]; [left; apply answered_deliv|].
      destruct (H2 x) as [Ha|Ha]; [left|right; exact Ha]. apply answered_other; [discriminate|exact Ha].
  Qed.
  Definition closed (P : mach -> list sev -> Prop) : Prop :=
    forall m evs s, P m evs -> forall m' e, arrive s m = (m', e) -> P m' (evs ++ e).
  Lemma app2 {A} (l : list A) x y : l ++ [x; y] = (l ++ [x]) ++ [y].
  Proof. rewrite <- app_assoc. reflexivity. Qed.
  Lemma inv_closed : closed Inv.
  Proof.
    intros m evs s HI m' e. unfold arrive, take_effect. destruct (m_caught m s) eqn:Ec; intros H; injection H as <- <-.
    - destruct HI as (H1 & H2 & H3 & H4). split; [|split; [|split; assumption]].
      + intros x t Hin. apply in_app_or in Hin. destruct Hin as [Hin|[Hin|[]]]; [eapply H1; eauto|discriminate].
      + intros x. cbn [m_got]. destruct (signal_eq_dec x s) as [->|Hne].
        * right. rewrite set_sig_same. split; [reflexivity|apply H4; exact Ec].
        * rewrite set_sig_other by exact Hne. destruct (H2 x) as [Ha|Ha]; [left|right; exact Ha].
          apply answered_other; [congruence|exact Ha].
    - rewrite app2. destruct HI as (H1 & H2 & H3 & H4). split; [|split; [|split; assumption]].
      + intros x t Hin Hb Hok. apply in_app_or in Hin. destruct Hin as [Hin|[Hin|[]]].
        * apply in_app_or in Hin. destruct Hin as [Hin|[Hin|[]]]; [eapply H1; eauto|discriminate].
        * injection Hin as -> <-. destruct (m_term m) eqn:Et; [reflexivity|]. rewrite (H3 Et Hok x Hb) in Ec. discriminate.
      + intros x. destruct (signal_eq_dec x s) as [->|Hne]; [left; apply answered_deliv|].
        destruct (H2 x) as [Ha|Ha]; [left|right; exact Ha].
        apply answered_other; [discriminate|]. apply answered_other; [congruence|exact Ha].
  Qed.
  Lemma arrive_frame m s m' e : arrive s m = (m', e) -> m_caught m' = m_caught m /\ m_term m' = m_term m.
  Proof. unfold arrive, take_effect. destruct (m_caught m s); intros H; injection H as <- <-; split; reflexivity. Qed.

  Definition hoare (P : mach -> list sev -> Prop) (acts : list act) (Q : mach -> list sev -> Prop) : Prop :=
    forall arr i m evs m' evs', P m evs -> course ok arr i acts m evs = (m', evs') -> Q m' evs'.
  Lemma arrivals_closed P : closed P -> forall ss m evs m' evs', P m evs -> arrivals ss m evs = (m', evs') -> P m' evs'.
  Proof.
    intros HC. induction ss as [|s t IH]; intros m evs m' evs' HP H; cbn [arrivals] in H.
    - injection H as <- <-. exact HP.
    - destruct (arrive s m) as [m1 e] eqn:Ea. eapply IH; [|exact H]. eapply HC; [exact HP|exact Ea].
  Qed.
  Lemma hoare_nil P : closed P -> hoare P [] P.
  Proof.
    intros HC arr i m evs m' evs' HP H. cbn [course] in H. destruct (arrivals (arr i) m evs) as [m1 e1] eqn:E.
    injection H as <- <-. eapply arrivals_closed; eauto.
  Qed.
  Lemma hoare_cons P (Q R : mach -> list sev -> Prop) a acts : closed P -> (forall m evs m' e, P m evs -> act_step ok a m = (m', e) -> Q m' (evs ++ e)) ->
    hoare Q acts R -> hoare P (a :: acts) R.
  Proof.
    intros HC HS HR arr i m evs m' evs' HP H. cbn [course] in H. destruct (arrivals (arr i) m evs) as [m1 e1] eqn:E.
    destruct (act_step ok a m1) as [m2 e2] eqn:E2. eapply HR; [|exact H]. eapply HS; [|exact E2]. eapply arrivals_closed; eauto.
  Qed.
  (** Sequencing, for postconditions established before the final arrivals. *)
  Definition seq (P : mach -> list sev -> Prop) (acts : list act) (Q : mach -> list sev -> Prop) : Prop :=
    forall rest R, hoare Q rest R -> hoare P (acts ++ rest) R.
  Lemma seq_nil P : seq P [] P.
  Proof. intros rest R H. exact H. Qed.
  Lemma seq_app P Q R a b : seq P a Q -> seq Q b R -> seq P (a ++ b) R.
  Proof. intros Ha Hb rest S HS. rewrite <- app_assoc. apply Ha. apply Hb. exact HS. Qed.
  Lemma seq_step P (Q R : mach -> list sev -> Prop) a acts : closed P -> (forall m evs m' e, P m evs -> act_step ok a m = (m', e) -> Q m' (evs ++ e)) ->
    seq Q acts R -> seq P (a :: acts) R.
  Proof. intros HC HS HR rest S HH. cbn [app]. eapply hoare_cons; [exact HC|exact HS|]. apply HR. exact HH. Qed.
  Lemma seq_weak (P P' Q : mach -> list sev -> Prop) acts : (forall m evs, P m evs -> P' m evs) -> seq P' acts Q -> seq P acts Q.
  Proof. intros HW HS rest R HR arr i m evs m' evs' HP H. eapply (HS rest R HR); eauto. Qed.
  Lemma seq_post (P Q Q' : mach -> list sev -> Prop) acts : (forall m evs, Q m evs -> Q' m evs) -> seq P acts Q -> seq P acts Q'.
  Proof. intros HW HS rest R HR. apply HS. intros arr i m evs m' evs' HQ H. eapply HR; eauto. Qed.

  (** Quiet actions. *)
  Definition quiet (a : act) : Prop :=
    match a with A_prompt _ | A_warn _ | A_read | A_close | A_zero => True | _ => False end.
  Lemma seq_quiet P acts : closed P -> Forall quiet acts -> seq P acts P.
  Proof.
    intros HC. induction 1 as [|a acts Ha _ IH]; [apply seq_nil|]. eapply seq_step; [exact HC| |exact IH].
    intros m evs m' e HP H. destruct a; try contradiction; injection H as <- <-; rewrite app_nil_r; exact HP.
  Qed.

  (** The phases. *)
  Definition clean m evs : Prop := Inv m evs /\ old m /\ (forall s, m_caught m s = false) /\ (forall s, answered evs s).
  Definition catching (D : list signal) m evs : Prop := Inv m evs /\ old m /\ (forall s, In s D -> m_caught m s = true).
  Definition caught_all m evs : Prop := Inv m evs /\ (forall s, bad s -> m_caught m s = true).
  Definition releasing (L : list signal) m evs : Prop := Inv m evs /\ old m /\ (forall s, m_caught m s = true -> In s L).
  Definition reissuing (L : list signal) m evs : Prop :=
    Inv m evs /\ old m /\ (forall s, m_caught m s = false) /\ (forall s, answered evs s \/ In s L).

  Lemma old_frame m m' : m_term m' = m_term m -> old m -> old m'.
  Proof. unfold old. intros -> H. exact H. Qed.
  Lemma clean_closed : closed clean.
  Proof.
    intros m evs s (HI & Ho & Hc & Ha) m' e H. destruct (arrive_frame _ _ _ _ H) as [E1 E2].
    split; [eapply inv_closed; eauto|]. split; [eapply old_frame; eauto|]. split; [intros x; rewrite E1; apply Hc|].
    intros x. unfold arrive, take_effect in H. rewrite (Hc s) in H. injection H as <- <-. rewrite app2.
    destruct (signal_eq_dec x s) as [->|Hne]; [apply answered_deliv|]. apply answered_other; [discriminate|].
    apply answered_other; [congruence|apply Ha].
  Qed.
  Lemma catching_closed D : closed (catching D).
  Proof.
    intros m evs s (HI & Ho & Hc) m' e H. destruct (arrive_frame _ _ _ _ H) as [E1 E2].
    split; [eapply inv_closed; eauto|]. split; [eapply old_frame; eauto|]. rewrite E1. exact Hc.
  Qed.
  Lemma caught_all_closed : closed caught_all.
  Proof.
    intros m evs s (HI & Hc) m' e H. destruct (arrive_frame _ _ _ _ H) as [E1 E2].
    split; [eapply inv_closed; eauto|]. rewrite E1. exact Hc.
  Qed.
  Lemma releasing_closed L : closed (releasing L).
  Proof.
    intros m evs s (HI & Ho & Hc) m' e H. destruct (arrive_frame _ _ _ _ H) as [E1 E2].
    split; [eapply inv_closed; eauto|]. split; [eapply old_frame; eauto|]. rewrite E1. exact Hc.
  Qed.
  Lemma reissuing_closed L : closed (reissuing L).
  Proof.
    intros m evs s (HI & Ho & Hc & Ha) m' e H. destruct (arrive_frame _ _ _ _ H) as [E1 E2].
    split; [eapply inv_closed; eauto|]. split; [eapply old_frame; eauto|]. split; [intros x; rewrite E1; apply Hc|].
    intros x. unfold arrive, take_effect in H. rewrite (Hc s) in H. injection H as <- <-. rewrite app2.
    destruct (signal_eq_dec x s) as [->|Hne]; [left; apply answered_deliv|]. destruct (Ha x) as [Hx|Hx]; [left|right; exact Hx].
    apply answered_other; [discriminate|]. apply answered_other; [congruence|exact Hx].
  Qed.

  Lemma seq_clear : seq clean [A_clear] (catching []).
  Proof.
    eapply seq_step; [exact clean_closed| |apply seq_nil].
    intros m evs m' e ((H1 & H2 & H3 & H4) & Ho & Hc & Ha) H. injection H as <- <-. rewrite app_nil_r.
    split; [|split; [exact Ho|intros s []]]. split; [exact H1|]. split; [intros s; left; apply Ha|]. split; [exact H3|exact H4].
  Qed.
  Lemma seq_catch : forall l D, Forall bad l -> seq (catching D) (map A_catch l) (catching (rev l ++ D)).
  Proof.
    induction l as [|x l IH]; intros D HF; [apply seq_nil|]. cbn [map rev]. rewrite <- app_assoc. cbn [app].
    eapply seq_step; [apply catching_closed| |apply (IH (x :: D)); inversion HF; assumption].
    intros m evs m' e ((H1 & H2 & H3 & H4) & Ho & Hc) H. injection H as <- <-. rewrite app_nil_r.
    assert (forall s, m_caught m s = true -> set_sig (m_caught m) x true s = true) as HS.
    { intros s Hs. unfold set_sig. destruct (signal_eq_dec s x); [reflexivity|exact Hs]. }
    split; [|split; [exact Ho|]].
    - split; [exact H1|]. split; [exact H2|]. split.
      + intros Ht Hok s Hs. cbn [m_caught]. apply HS. exact (H3 Ht Hok s Hs).
      + intros s. cbn [m_caught]. unfold set_sig. destruct (signal_eq_dec s x) as [->|]; [intros _; inversion HF; assumption|apply H4].
    - intros s [<-|Hs]; cbn [m_caught]; [apply set_sig_same|apply HS, Hc, Hs].
  Qed.
  Lemma all_bad : Forall bad badsigs.
  Proof. apply Forall_forall. intros s H. exact H. Qed.
  Lemma catching_rev m evs : catching (rev badsigs ++ []) m evs -> catching badsigs m evs.
  Proof. intros (H1 & H2 & H3). split; [exact H1|]. split; [exact H2|]. intros s Hs. apply H3. rewrite app_nil_r. rewrite <- in_rev. exact Hs. Qed.
  Lemma seq_start : seq clean (A_clear :: map A_catch badsigs) (catching badsigs).
  Proof.
    change (A_clear :: map A_catch badsigs) with ([A_clear] ++ map A_catch badsigs).
    eapply seq_app; [exact seq_clear|]. eapply seq_post; [exact catching_rev|]. exact (seq_catch badsigs [] all_bad).
  Qed.
  Lemma seq_off : seq (catching badsigs) [A_echo_off] caught_all.
  Proof.
    eapply seq_step; [apply catching_closed| |apply seq_nil].
    intros m evs m' e ((H1 & H2 & H3 & H4) & Ho & Hc) H. injection H as <- <-. rewrite app_nil_r.
    split; [|exact Hc]. split; [exact H1|]. split; [exact H2|]. split; [|exact H4]. intros _ _. exact Hc.
  Qed.
  Lemma seq_back : seq caught_all [A_echo_back] (catching badsigs).
  Proof.
    eapply seq_step; [apply caught_all_closed| |apply seq_nil].
    intros m evs m' e ((H1 & H2 & H3 & H4) & Hc) H. injection H as <- <-. rewrite app_nil_r. destruct ok eqn:Eok.
    - split; [|split; [intros _; reflexivity|exact Hc]]. split; [exact H1|]. split; [exact H2|]. split; [|exact H4].
      intros Ht. discriminate Ht.
    - split; [|split; [intros Hx; congruence|exact Hc]]. split; [exact H1|]. split; [exact H2|]. split; [exact H3|exact H4].
  Qed.
  Lemma seq_uncatch : forall l, seq (releasing l) (map A_uncatch l) (releasing []).
  Proof.
    induction l as [|x l IH]; [apply seq_nil|]. cbn [map].
    eapply seq_step; [apply releasing_closed| |exact IH].
    intros m evs m' e ((H1 & H2 & H3 & H4) & Ho & Hc) H. injection H as <- <-. rewrite app_nil_r.
    split; [|split; [exact Ho|]].
    - split; [exact H1|]. split; [exact H2|]. split.
      + intros Ht Hok. cbn [m_term] in Ht. rewrite (Ho Hok) in Ht. discriminate.
      + intros s. cbn [m_caught]. unfold set_sig. destruct (signal_eq_dec s x) as [->|]; [discriminate|apply H4].
    - intros s. cbn [m_caught]. unfold set_sig. destruct (signal_eq_dec s x) as [->|Hne]; [discriminate|].
      intros Hs. destruct (Hc s Hs) as [->|Hin]; [congruence|exact Hin].
  Qed.
  Lemma seq_reissue : forall l, seq (reissuing l) (map A_reissue l) clean.
  Proof.
    induction l as [|x l IH].
    - eapply seq_post; [|apply seq_nil]. intros m evs (HI & Ho & Hc & Ha). split; [exact HI|]. split; [exact Ho|]. split; [exact Hc|].
      intros s. destruct (Ha s) as [H|[]]. exact H.
    - cbn [map]. eapply seq_step; [apply reissuing_closed| |exact IH].
      intros m evs m' e (HI & Ho & Hc & Ha) H. unfold act_step, take_effect in H. rewrite (Hc x) in H. destruct (m_got m x) eqn:Eg.
      + injection H as <- <-. split; [apply deliv_inv; [apply Hc|exact HI]|]. split; [exact Ho|]. split; [exact Hc|].
        intros s. destruct (signal_eq_dec s x) as [->|Hne]; [left; apply answered_deliv|]. destruct (Ha s) as [H|[H|H]].
        * left. apply answered_other; [discriminate|exact H].
        * congruence.
        * right. exact H.
      + injection H as <- <-. rewrite app_nil_r. split; [exact HI|]. split; [exact Ho|]. split; [exact Hc|].
        intros s. destruct (Ha s) as [H|[<-|H]]; [left; exact H| |right; exact H].
        destruct HI as (_ & H2 & _). destruct (H2 x) as [H|[H _]]; [left; exact H|congruence].
  Qed.
  Lemma seq_resetsigs : seq (catching badsigs) resetsigs clean.
  Proof.
    unfold resetsigs. eapply seq_app.
    - eapply seq_weak; [|apply seq_uncatch]. intros m evs ((H1 & H2 & H3 & H4) & Ho & Hc).
      split; [repeat split; assumption|]. split; [exact Ho|]. exact H4.
    - eapply seq_weak; [|apply seq_reissue]. intros m evs (HI & Ho & Hc). split; [exact HI|]. split; [exact Ho|]. split.
      + intros s. destruct (m_caught m s) eqn:E; [destruct (Hc s E)|reflexivity].
      + intros s. destruct HI as (_ & H2 & _). destruct (H2 s) as [H|[_ H]]; [left; exact H|right; exact H].
  Qed.
End Signals.
