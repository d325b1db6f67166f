(** Facts about the stream model. *)
From Verif Require Import Base M_stdio SpecStream.

Lemma prefix_refl a : prefix a a.
Proof. exists []. rewrite app_nil_r. reflexivity. Qed.
Lemma prefix_nil a : prefix [] a.
Proof. exists a. reflexivity. Qed.
Lemma prefix_app a b : prefix a (a ++ b).
Proof. exists b. reflexivity. Qed.
Lemma prefix_cons_app a b c : prefix b c -> prefix (a ++ b) (a ++ c).
Proof. intros [x ->]. exists x. rewrite app_assoc. reflexivity. Qed.
Lemma prefix_trans a b c : prefix a b -> prefix b c -> prefix a c.
Proof. intros [x ->] [y ->]. exists (x ++ y). rewrite app_assoc. reflexivity. Qed.
Lemma prefix_firstn n a : prefix (firstn n a) a.
Proof. exists (skipn n a). rewrite firstn_skipn. reflexivity. Qed.
Lemma prefix_length a b : prefix a b -> (length a <= length b)%nat.
Proof. intros [c ->]. rewrite app_length. lia. Qed.

Lemma delivered_data data s : delivered data s -> stream_data s = data /\ stream_fails s = false.
Proof.
  intros (He & Hp & <-). unfold stream_data, stream_fails. rewrite He. cbn [orb].
  induction Hp as [|[d e] t [H1 H2] _ IH]; [split; reflexivity|]. cbn [fst snd] in *. subst e.
  cbn [pieces_data pieces_fail map concat fst]. destruct IH as [IH1 IH2]. destruct d; [congruence|]. rewrite IH1. split; [reflexivity|exact IH2].
Qed.
Lemma delivered_exists data : delivered data (mk_in (match data with [] => [] | _ => [(data, false)] end) false).
Proof. destruct data; (split; [reflexivity|split; [repeat constructor; discriminate|]]); cbn [i_pieces map concat fst]; rewrite ?app_nil_r; reflexivity. Qed.
Lemma stream_data_ok s : input_ok s -> bytes_ok (stream_data s).
Proof.
  unfold input_ok, stream_data. induction 1 as [|[d e] t H1 _ IH]; [constructor|]. cbn [pieces_data fst] in *.
  apply bytes_ok_app. split; [exact H1|]. destruct e; [constructor|]. destruct d; [constructor|exact IH].
Qed.

Lemma fread1_nil n s s' : (0 < n)%nat -> fread1 n s = ([], s') ->
  stream_data s = [] /\ i_err s' = stream_fails s.
Proof.
  unfold fread1, stream_data, stream_fails. intros Hn. destruct (i_pieces s) as [|[d e] t] eqn:E.
  - intros H. injection H as <-. rewrite orb_false_r. split; reflexivity.
  - destruct (Nat.ltb n (length d) || (Nat.eqb n (length d) && e)) eqn:EB; intros H.
    + assert (n <= length d)%nat as HL.
      { apply orb_prop in EB. destruct EB as [EB|EB]; [apply Nat.ltb_lt in EB; lia|].
        apply andb_prop in EB. destruct EB as [EB _]. apply Nat.eqb_eq in EB. lia. }
      assert (length (firstn n d) = n) as HX by (rewrite firstn_length; lia).
      assert (firstn n d = []) as HY by congruence. rewrite HY in HX. cbn in HX. lia.
    + assert (d = [] /\ s' = mk_in t (i_err s || e)) as (-> & ->) by (split; congruence). cbn. destruct e; split; reflexivity.
Qed.
Lemma fread1_some n s d s' : (0 < n)%nat -> fread1 n s = (d, s') -> d <> [] -> input_ok s ->
  (length d <= n)%nat /\ bytes_ok d /\ input_ok s' /\ (in_size s' < in_size s)%nat /\
  (stream_fails s = false -> stream_fails s' = false /\ stream_data s = d ++ stream_data s') /\
  (stream_fails s = true -> stream_fails s' = true) /\
  (exists x, stream_data (no_errors s) = d ++ x /\ (stream_data (no_errors s') = x \/ (stream_data (no_errors s') = []))).
Proof.
  unfold fread1, stream_data, stream_fails, input_ok, in_size, no_errors. cbn [i_pieces].
  intros Hn H Hd HO. destruct (i_pieces s) as [|[d0 e] t] eqn:E; [congruence|].
  inversion HO as [|? ? HO1 HO2]; subst. cbn [fst] in HO1.
  destruct (Nat.ltb n (length d0) || (Nat.eqb n (length d0) && e)) eqn:EB.
  - assert (n <= length d0)%nat as HL.
    { apply orb_prop in EB. destruct EB as [EB|EB]; [apply Nat.ltb_lt in EB; lia|].
      apply andb_prop in EB. destruct EB as [EB _]. apply Nat.eqb_eq in EB. lia. }
    assert (d = firstn n d0 /\ s' = mk_in ((skipn n d0, e) :: t) (i_err s)) as (-> & ->) by (split; congruence).
    cbn [i_pieces i_err pieces_data pieces_fail map fst fold_right].
    split; [rewrite firstn_length; lia|]. split; [apply Forall_firstn, HO1|].
    split; [constructor; [apply Forall_skipn, HO1|exact HO2]|].
    split; [rewrite skipn_length; lia|].
    assert (skipn n d0 = [] -> e = true) as HE.
    { intros HE. assert (length (skipn n d0) = 0%nat) as HX by (rewrite HE; reflexivity). rewrite skipn_length in HX.
      assert (Nat.ltb n (length d0) = false) as HZ by (apply Nat.ltb_ge; lia). rewrite HZ in EB. cbn [orb] in EB. apply andb_prop in EB. apply EB. }
    assert (d0 <> []) as HD0 by (intros ->; cbn in HL; lia).
    destruct e.
    + split; [intros HX; rewrite orb_true_r in HX; discriminate|]. split; [intros _; apply orb_true_r|].
      destruct d0 as [|b0 d0']; [congruence|]. remember (b0 :: d0') as d0. clear Heqd0 HE.
      exists (skipn n d0 ++ pieces_data (map (fun p => (fst p, false)) t)).
      split; [rewrite app_assoc, firstn_skipn; reflexivity|].
      destruct (skipn n d0); [right|left]; reflexivity.
    + destruct (skipn n d0) as [|b1 d1] eqn:ES; [specialize (HE eq_refl); discriminate|]. clear HE.
      destruct d0 as [|b0 d0']; [congruence|]. remember (b0 :: d0') as d0. clear Heqd0.
      assert (d0 = firstn n d0 ++ b1 :: d1) as HS by (rewrite <- ES, firstn_skipn; reflexivity).
      split; [intros HX; split; [exact HX|rewrite HS at 1; rewrite app_assoc; reflexivity]|]. split; [auto|].
      exists ((b1 :: d1) ++ pieces_data (map (fun p => (fst p, false)) t)). split; [rewrite HS at 1; rewrite app_assoc; reflexivity|left; reflexivity].
  - assert (d0 = d /\ s' = mk_in t (i_err s || e)) as (-> & ->) by (split; congruence). cbn [i_pieces i_err pieces_data pieces_fail map fst fold_right].
    apply orb_false_elim in EB. destruct EB as [EB1 EB2]. apply Nat.ltb_ge in EB1.
    split; [exact EB1|]. split; [exact HO1|]. split; [exact HO2|]. split; [lia|].
    destruct d as [|b d']; [congruence|]. remember (b :: d') as d. clear Heqd.
    destruct e.
    + rewrite !orb_true_r. cbn [orb]. split; [discriminate|]. split; [auto|]. eexists; split; [reflexivity|left; reflexivity].
    + rewrite orb_false_r. split; [auto|]. split; [auto|]. eexists; split; [reflexivity|left; reflexivity].
Qed.
Lemma fwrite_cases d s ok s' : fwrite d s = (ok, s') ->
  (ok = true /\ o_data s' = o_data s ++ d /\ o_err s' = o_err s) \/
  (ok = false /\ o_err s' = true /\ exists k, (k < length d)%nat /\ o_data s' = o_data s ++ firstn k d).
Proof.
  unfold fwrite. destruct (o_plan s) as [|[k|] t]; intros H.
  - left. injection H as <- <-. auto.
  - destruct (Nat.ltb_spec k (length d)).
    + right. injection H as <- <-. cbn. eauto.
    + left. injection H as <- <-. auto.
  - left. injection H as <- <-. auto.
Qed.
Lemma fread_all_spec : forall ps n err x ok s', Forall (fun p => bytes_ok (fst p)) ps ->
  fread_all ps err n = (x, ok, s') ->
  input_ok s' /\ bytes_ok x /\
  (ok = true -> length x = n /\ i_err s' = err /\ pieces_data ps = x ++ stream_data s' /\ pieces_fail ps = pieces_fail (i_pieces s')) /\
  (ok = false -> (length x < n)%nat /\ x = pieces_data ps /\ i_err s' = err || pieces_fail ps).
Proof.
  induction ps as [|[d e] t IH]; intros n err x ok s' HO H.
  - destruct n; cbn [fread_all] in H; injection H as <- <- <-; cbn; (split; [constructor|]); (split; [constructor|]); (split; [intros; try discriminate; auto|]); intros; try discriminate; rewrite ?orb_false_r; cbn; auto with arith.
  - inversion HO as [|? ? HO1 HO2]; subst. cbn [fst] in HO1.
    destruct n as [|n]; cbn [fread_all] in H.
    { injection H as <- <- <-. cbn. split; [exact HO|]. split; [constructor|]. split; [auto|discriminate]. }
    remember (S n) as m eqn:Em.
    destruct (Nat.ltb m (length d) || (Nat.eqb m (length d) && e)) eqn:EB.
    + assert (m <= length d)%nat as HL.
      { apply orb_prop in EB. destruct EB as [EB|EB]; [apply Nat.ltb_lt in EB; lia|].
        apply andb_prop in EB. destruct EB as [EB _]. apply Nat.eqb_eq in EB. lia. }
      assert (x = firstn m d /\ ok = true /\ s' = mk_in ((skipn m d, e) :: t) err) as (-> & -> & ->) by (repeat split; congruence).
      unfold input_ok, stream_data. cbn [i_pieces i_err pieces_data pieces_fail].
      split; [constructor; [apply Forall_skipn, HO1|exact HO2]|]. split; [apply Forall_firstn, HO1|]. split; [intros _|discriminate].
      split; [rewrite firstn_length; lia|]. split; [reflexivity|].
      assert (skipn m d = [] -> e = true) as HE.
      { intros HE. assert (length (skipn m d) = 0%nat) as HX by (rewrite HE; reflexivity). rewrite skipn_length in HX.
        assert (Nat.ltb m (length d) = false) as HZ by (apply Nat.ltb_ge; lia). rewrite HZ in EB. cbn [orb] in EB. apply andb_prop in EB. apply EB. }
      destruct e.
      * rewrite !app_nil_r, firstn_skipn. split; reflexivity.
      * destruct (skipn m d) as [|b1 d1] eqn:ES; [specialize (HE eq_refl); discriminate|].
        destruct d as [|b0 d0]; [cbn in HL; lia|]. remember (b0 :: d0) as dd. clear Heqdd.
        split; [|reflexivity]. rewrite app_assoc. rewrite <- ES, firstn_skipn. reflexivity.
    + apply orb_false_elim in EB. destruct EB as [EB1 EB2]. apply Nat.ltb_ge in EB1.
      destruct (Nat.eqb_spec m (length d)) as [HE|HE].
      * cbn [andb] in EB2. subst e. assert (x = d /\ ok = true /\ s' = mk_in t err) as (-> & -> & ->) by (repeat split; congruence).
        split; [exact HO2|]. split; [exact HO1|]. split; [intros _|discriminate]. split; [auto|]. split; [reflexivity|].
        unfold stream_data. cbn [i_pieces pieces_data pieces_fail]. destruct d; [cbn in HE; lia|]. split; reflexivity.
      * destruct (Nat.eqb_spec (length d) 0) as [H0|H0]; cbn [orb] in H.
        -- assert (x = d /\ ok = false /\ s' = mk_in t (err || e)) as (-> & -> & ->) by (repeat split; congruence).
           destruct d; [|discriminate]. cbn. split; [exact HO2|]. split; [constructor|]. split; [discriminate|]. intros _.
           split; [lia|]. destruct e; split; reflexivity.
        -- destruct e.
           ++ assert (x = d /\ ok = false /\ s' = mk_in t (err || true)) as (-> & -> & ->) by (repeat split; congruence).
              cbn [i_err i_pieces pieces_data pieces_fail]. split; [exact HO2|]. split; [exact HO1|]. split; [discriminate|]. intros _.
              split; [lia|]. rewrite app_nil_r. split; reflexivity.
           ++ destruct (fread_all t err (m - length d)) as [[x1 ok1] s1] eqn:EF.
              assert (x = d ++ x1 /\ ok = ok1 /\ s' = s1) as (-> & -> & ->) by (repeat split; congruence).
              specialize (IH _ _ _ _ _ HO2 EF). destruct IH as (I1 & I2 & I3 & I4).
              split; [exact I1|]. split; [apply bytes_ok_app; split; assumption|].
              cbn [pieces_data pieces_fail]. destruct d as [|b0 d0]; [cbn in H0; lia|]. remember (b0 :: d0) as dd. clear Heqdd.
              split.
              ** intros Hk. destruct (I3 Hk) as (J1 & J2 & J3 & J4). split; [rewrite app_length; lia|]. split; [exact J2|].
                 rewrite J3, app_assoc. split; [reflexivity|exact J4].
              ** intros Hk. destruct (I4 Hk) as (J1 & J2 & J3). split; [rewrite app_length; lia|]. rewrite J2 at 1. split; [reflexivity|exact J3].
Qed.
Lemma fread_all_prefix : forall ps n err x s', fread_all ps err n = (x, true, s') ->
  prefix (x ++ stream_data (no_errors s')) (pieces_data (map (fun p => (fst p, false)) ps)).
Proof.
  induction ps as [|[d e] t IH]; intros n err x s' H.
  - destruct n; cbn [fread_all] in H; [|discriminate]. injection H as <- <-. apply prefix_nil.
  - destruct n as [|n]; cbn [fread_all] in H.
    { injection H as <- <-. apply prefix_refl. }
    remember (S n) as m eqn:Em.
    destruct (Nat.ltb m (length d) || (Nat.eqb m (length d) && e)) eqn:EB.
    + assert (m <= length d)%nat as HL.
      { apply orb_prop in EB. destruct EB as [EB|EB]; [apply Nat.ltb_lt in EB; lia|].
        apply andb_prop in EB. destruct EB as [EB _]. apply Nat.eqb_eq in EB. lia. }
      assert (x = firstn m d /\ s' = mk_in ((skipn m d, e) :: t) err) as (-> & ->) by (split; congruence).
      unfold stream_data, no_errors. cbn [i_pieces map fst pieces_data].
      destruct d as [|b0 d0]; [cbn in HL; lia|]. remember (b0 :: d0) as dd. clear Heqdd.
      rewrite app_assoc, firstn_skipn. apply prefix_cons_app. destruct (skipn m dd); [apply prefix_nil|apply prefix_refl].
    + apply orb_false_elim in EB. destruct EB as [EB1 EB2]. apply Nat.ltb_ge in EB1.
      destruct (Nat.eqb_spec m (length d)) as [HE|HE].
      * assert (x = d /\ s' = mk_in t err) as (-> & ->) by (split; congruence).
        unfold stream_data, no_errors. cbn [i_pieces map fst pieces_data]. destruct d; [cbn in HE; lia|]. apply prefix_refl.
      * destruct (Nat.eqb_spec (length d) 0) as [H0|H0]; cbn [orb] in H; [discriminate|].
        destruct e; [discriminate|].
        destruct (fread_all t err (m - length d)) as [[x1 ok1] s1] eqn:EF.
        assert (x = d ++ x1 /\ ok1 = true /\ s' = s1) as (-> & -> & ->) by (repeat split; congruence).
        specialize (IH _ _ _ _ EF). cbn [map fst pieces_data]. destruct d as [|b0 d0]; [cbn in H0; lia|].
        rewrite <- app_assoc. apply prefix_cons_app. exact IH.
Qed.
