(** Property C38: option parsing. *)
From Verif Require Import Base SpecGetopt M_getopt P_scrypt_ref.

(** The table held by the sparse array. *)
Definition table_of (opts : slots) : table := flat_map (fun s => match s with Some o => [o] | None => [] end) opts.
(** What the program sees of an event: the label reached, the string, the
    argument, and (only without a GETOPT_MISSING_ARG label) a message. *)
Definition observe (has_missing : bool) (e : event) : obs :=
  let warn w := if has_missing then None else Some w in
  match e with
  | Flag n => mk_obs (L_opt n) n None None
  | Arg n a => mk_obs (L_opt n) n (Some a) None
  | Missing n => mk_obs (if has_missing then L_missing else L_default) n None (warn (W_requires n))
  | Unexpected n => mk_obs L_default n None (warn (W_noarg n))
  | Unknown s => mk_obs L_default s None (warn (W_unknown s))
  end.
(** C strings. *)
Definition cstring (s : list N) : Prop := ~ In 0 s.

(** ** Proofs *)
Lemma chr_in s i : (i < length s)%nat -> exists c, chr s i = Ok c /\ nth_error s i = Some c.
Proof.
  intros H. unfold chr. destruct (Nat.leb_spec i (length s)); [|lia]. exists (nth i s 0). split; [reflexivity|].
  apply nth_error_nth'. exact H.
Qed.
Lemma searchopt_spec opts os : cstring os -> forall k, exists r, searchopt_from k opts os = Ok r /\
  match r with
  | Some i => (k <= i)%nat /\ exists n b, nth_error opts (i - k) = Some (Some (n, b)) /\ (os = n \/ exists v, os = n ++ 61 :: v)
  | None => forall n b, In (Some (n, b)) opts -> os <> n /\ forall v, os <> n ++ 61 :: v
  end.
Proof.
  intros HC. induction opts as [|[[n b]|] opts IH]; intros k; cbn [searchopt_from].
  - eexists. split; [reflexivity|]. cbn. intros n b [].
  - assert (forall r, searchopt_from (S k) opts os = Ok r -> (os <> n /\ forall v, os <> n ++ 61 :: v) ->
      match r with
      | Some i => (S k <= i)%nat /\ exists n b, nth_error opts (i - S k) = Some (Some (n, b)) /\ (os = n \/ exists v, os = n ++ 61 :: v)
      | None => forall n b, In (Some (n, b)) opts -> os <> n /\ forall v, os <> n ++ 61 :: v end ->
      match r with
      | Some i => (k <= i)%nat /\ exists n0 b0, nth_error (Some (n, b) :: opts) (i - k) = Some (Some (n0, b0)) /\ (os = n0 \/ exists v, os = n0 ++ 61 :: v)
      | None => forall n0 b0, In (Some (n0, b0)) (Some (n, b) :: opts) -> os <> n0 /\ forall v, os <> n0 ++ 61 :: v end) as HS.
    { intros [i|] _ HN HR.
      - destruct HR as (HK & n1 & b1 & HE & HO). split; [lia|]. exists n1, b1. replace (i - k)%nat with (S (i - S k)) by lia. auto.
      - intros n1 b1 [HI|HI]; [injection HI as <- <-; exact HN|apply (HR n1 b1 HI)]. }
    destruct (list_eqb n (firstn (length n) os)) eqn:EP; cbn [negb].
    + apply list_eqb_spec in EP.
      assert (length n <= length os)%nat as HL by (apply (f_equal (@length N)) in EP; rewrite firstn_length in EP; lia).
      unfold chr. destruct (Nat.leb_spec (length n) (length os)); [|lia]. rewrite bind_Ok.
      assert (os = n ++ skipn (length n) os) as ES by (pose proof (firstn_skipn (length n) os) as X; rewrite <- EP in X; symmetry; exact X).
      destruct (Nat.eq_dec (length n) (length os)) as [EL|EL].
      * rewrite nth_overflow by lia. cbn [orb N.eqb]. exists (Some k). split; [reflexivity|]. split; [lia|].
        exists n, b. rewrite Nat.sub_diag. split; [reflexivity|]. left. rewrite ES. rewrite skipn_all2 by lia. apply app_nil_r.
      * assert (exists c t, skipn (length n) os = c :: t) as (c & t & EC).
        { destruct (skipn (length n) os) as [|c t] eqn:E; [|eauto]. apply (f_equal (@length N)) in E. rewrite skipn_length in E. cbn in E. lia. }
        rewrite EC in ES. assert (nth (length n) os 0 = c) as ->.
        { rewrite ES, app_nth2, Nat.sub_diag by lia. reflexivity. }
        assert (c <> 0) as HC0 by (intros ->; apply HC; rewrite ES; apply in_or_app; right; left; reflexivity).
        destruct ((c =? 0) || (c =? 61)) eqn:E61.
        -- exists (Some k). split; [reflexivity|]. split; [lia|]. exists n, b. rewrite Nat.sub_diag. split; [reflexivity|]. right. exists t.
           rewrite ES. do 2 f_equal. lia.
        -- destruct (IH (S k)) as (r & Er & Hr). exists r. split; [exact Er|]. apply HS; [exact Er| |exact Hr]. clear - ES E61 EL. split.
           ++ intros ->. lia.
           ++ intros v Hv. rewrite Hv in ES. apply app_inv_head in ES. injection ES as <- _. discriminate.
    + apply list_eqb_false in EP. destruct (IH (S k)) as (r & Er & Hr). exists r. split; [exact Er|]. apply HS; [exact Er| |exact Hr]. split.
      * intros ->. apply EP. symmetry. apply firstn_all.
      * intros v ->. apply EP. rewrite firstn_app, Nat.sub_diag, firstn_O, app_nil_r, firstn_all. reflexivity.
  - destruct (IH (S k)) as (r & Er & Hr). exists r. split; [exact Er|]. destruct r as [i|].
    + destruct Hr as (HK & n1 & b1 & HE & HO). split; [lia|]. exists n1, b1. replace (i - k)%nat with (S (i - S k)) by lia. auto.
    + intros n b [HI|HI]; [discriminate|apply (Hr n b HI)].
Qed.
Lemma in_table opts n b : In (n, b) (table_of opts) <-> In (Some (n, b)) opts.
Proof.
  unfold table_of. rewrite in_flat_map. split.
  - intros ([o|] & HI & HO); [|contradiction]. destruct HO as [<-|[]]. exact HI.
  - intros HI. exists (Some (n, b)). split; [exact HI|left; reflexivity].
Qed.
Lemma rd_one {A} (l : list A) i x : nth_error l i = Some x -> rd l i 1 = Ok [x].
Proof.
  intros H. assert (i < length l)%nat as HL by (apply nth_error_Some; congruence). rewrite rd_ok by lia. unfold sub. do 2 f_equal.
  revert l H HL. induction i as [|i IH]; intros [|y l] H HL; cbn in *; try lia; [injection H as ->; reflexivity|apply IH; [exact H|lia]].
Qed.
(** First '=' of a string. *)
Lemma split_eq (s : list N) : (~ In 61 s) \/ exists n v, s = n ++ 61 :: v /\ ~ In 61 n.
Proof.
  induction s as [|c s [IH|(n & v & -> & IH)]].
  - left. intros [].
  - destruct (N.eq_dec c 61) as [->|HC]; [right; exists [], s; split; [reflexivity|intros []]|]. left. intros [H|H]; auto.
  - right. destruct (N.eq_dec c 61) as [->|HC]; [exists [], (n ++ 61 :: v); split; [reflexivity|intros []]|].
    exists (c :: n), v. split; [reflexivity|]. intros [H|H]; auto.
Qed.
Lemma split_unique (n n' v v' : list N) : ~ In 61 n -> ~ In 61 n' -> n ++ 61 :: v = n' ++ 61 :: v' -> n = n' /\ v = v'.
Proof.
  revert n'. induction n as [|c n IH]; intros [|c' n'] H H' E; cbn [app] in E.
  - injection E as ->. auto.
  - exfalso. injection E as <- _. apply H'. left. reflexivity.
  - exfalso. injection E as -> _. apply H. left. reflexivity.
  - injection E as -> E. destruct (IH n') as [-> ->]; auto.
    + intros HI. apply H. right. exact HI.
    + intros HI. apply H'. right. exact HI.
Qed.
Lemma chr_cons c s : chr (c :: s) 0 = Ok c. Proof. reflexivity. Qed.
Lemma chr_nil : chr [] 0 = Ok 0. Proof. reflexivity. Qed.

Section Step.
  Context (opts : slots) (hm : bool) (argv : list bytes).
  Hypothesis HT : good_table (table_of opts).
  Hypothesis HA : Forall cstring argv.
  Let T := table_of opts.
  Definition ginv (st : gstate) : Prop :=
    forall p, g_packed st = Some p -> p <> [] /\ cstring p /\ (g_optind st < length argv)%nat.
  Definition parse_st (st : gstate) (evs : list event) (rest : list bytes) : Prop :=
    match g_packed st with
    | None => parse T (skipn (g_optind st) argv) evs rest
    | Some p => cluster T p (skipn (S (g_optind st)) argv) evs rest
    end.
  Definition total (l : list bytes) : nat := fold_right (fun a n => S (length a) + n)%nat 0%nat l.
  Definition measure (st : gstate) : nat :=
    match g_packed st with
    | None => total (skipn (g_optind st) argv)
    | Some p => (length p + total (skipn (S (g_optind st)) argv))%nat
    end.
  (** Looking up a name. *)
  Lemma name_shape n b : In (n, b) T -> (short_name n \/ long_name n) /\ ~ In 61 n.
  Proof. intros HI. destruct HT as [_ H]. rewrite Forall_forall in H. apply (H (n, b) HI). Qed.
  Lemma name_functional n b b' : In (n, b) T -> In (n, b') T -> b = b'.
  Proof.
    destruct HT as [H _]. fold T in H. clear HT HA. clearbody T. induction T as [|[n0 b0] t IH]; [intros []|]. cbn [map fst] in H. inversion H as [|? ? H1 H2]; subst.
    intros [E|HI] [E'|HI'].
    - congruence.
    - injection E as -> ->. exfalso. apply H1. apply (in_map fst) in HI'. exact HI'.
    - injection E' as -> ->. exfalso. apply H1. apply (in_map fst) in HI. exact HI.
    - apply IH; assumption.
  Qed.
  Lemma search_short c : c <> 0 -> exists r, searchopt opts [45; c] = Ok r /\
    match r with
    | Some i => exists b, nth_error opts i = Some (Some ([45; c], b)) /\ known T [45; c] b /\ c <> 61
    | None => not_known T [45; c]
    end.
  Proof.
    intros HC. destruct (searchopt_spec opts [45; c] ltac:(intros [H|[H|[]]]; congruence) 0) as (r & E & H). exists r. split; [exact E|].
    destruct r as [i|].
    - destruct H as (_ & n & b & HN & HO). rewrite Nat.sub_0_r in HN.
      assert (In (n, b) T) as HI by (apply in_table; eapply nth_error_In; exact HN). destruct (name_shape n b HI) as [HS HE].
      destruct HO as [<-|(v & HV)].
      + exists b. split; [exact HN|]. split; [exact HI|]. intros ->. apply HE. right. left. reflexivity.
      + exfalso. destruct HS as [(c' & -> & _)|(c' & t & ->)]; discriminate HV.
    - intros b HI. apply in_table in HI. destruct (H _ _ HI) as [H1 _]. congruence.
  Qed.
  Lemma search_long os : cstring os -> long_name os -> exists r, searchopt opts os = Ok r /\
    match r with
    | Some i => exists n b, nth_error opts i = Some (Some (n, b)) /\ known T n b /\ long_name n /\ ~ In 61 n /\ (os = n \/ exists v, os = n ++ 61 :: v)
    | None => (~ In 61 os /\ not_known T os) \/ (exists n v, os = n ++ 61 :: v /\ ~ In 61 n /\ not_known T n /\ (n = [45; 45] \/ long_name n))
    end.
  Proof.
    intros HC (c & t & EL). destruct (searchopt_spec opts os HC 0) as (r & E & H). exists r. split; [exact E|]. destruct r as [i|].
    - destruct H as (_ & n & b & HN & HO). rewrite Nat.sub_0_r in HN. exists n, b.
      assert (In (n, b) T) as HI by (apply in_table; eapply nth_error_In; exact HN). destruct (name_shape n b HI) as [HS HE].
      split; [exact HN|]. split; [exact HI|]. split; [|split; [exact HE|exact HO]].
      destruct HS as [(c' & -> & HC')|HS]; [|exact HS]. exfalso. destruct HO as [HO|(v & HO)]; rewrite EL in HO; [discriminate|injection HO as <-; contradiction].
    - destruct (split_eq os) as [HN|(n & v & ES & HN)].
      + left. split; [exact HN|]. intros b HI. apply in_table in HI. destruct (H _ _ HI) as [H1 _]. congruence.
      + right. exists n, v. split; [exact ES|]. split; [exact HN|]. split.
        * intros b HI. apply in_table in HI. destruct (H _ _ HI) as [_ H1]. apply (H1 v ES).
        * rewrite EL in ES. destruct n as [|n1 [|n2 [|n3 n']]]; try discriminate.
          -- injection ES as <- <- _. left. reflexivity.
          -- injection ES as <- <- _. right. exists n3, n'. reflexivity.
  Qed.
  Lemma skipn_cons i a : nth_error argv i = Some a -> skipn i argv = a :: skipn (S i) argv.
  Proof. clear. revert i. induction argv as [|x l IH]; intros [|i] H; cbn in *; try discriminate; [injection H as ->; reflexivity|apply IH, H]. Qed.
  (** What one call does. *)
  Definition step_ok (st : gstate) : Prop :=
    (exists st', getopt opts hm argv st = Ok (st', None) /\ parse_st st [] (skipn (g_optind st') argv)) \/
    (exists st' r e, getopt opts hm argv st = Ok (st', Some r) /\ dispatch opts hm r = Ok (observe hm e) /\ ginv st' /\
       (measure st' < measure st)%nat /\ (forall evs rest, parse_st st' evs rest -> parse_st st (e :: evs) rest)).

  (** The common tail for a character of a packed group. *)
  Definition packed_tail (p : bytes) (optind : nat) : res (gstate * option gret) :=
    let argc := length argv in
    ' (os, packed, optind) <-
      (c <- chr p 0 ;; e <- chr_is (skipn 1 p) 0 0 ;;
       Ok (if (e : bool) then (Some [45; c], None, S optind) else (Some [45; c], Some (skipn 1 p), optind))) ;;
    match os with
    | None => Ok (mk_gs optind packed, None)
    | Some os =>
        f <- searchopt opts os ;;
        match f with
        | None => Ok (mk_gs optind packed, Some (mk_gret os Found_default None (WARN hm (W_unknown os))))
        | Some i =>
            s <- rd opts i 1 ;;
            match s with
            | [Some (name, hasarg)] =>
                sep <- chr os (length name) ;;
                if (hasarg : bool) then
                  let '(optarg, packed, optind) :=
                    match packed with Some p => (Some p, None, S optind) | None => (None, None, optind) end in
                  let optarg := if sep =? 61 then Some (skipn (length name + 1) os) else optarg in
                  ' (optarg, optind) <-
                    match optarg with
                    | Some a => Ok (Some a, optind)
                    | None => if Nat.ltb optind argc then a <- argvi argv optind ;; Ok (Some a, S optind) else Ok (None, optind)
                    end ;;
                  match optarg with
                  | Some a => Ok (mk_gs optind packed, Some (mk_gret name (Found i) (Some a) None))
                  | None => Ok (mk_gs optind packed, Some (mk_gret name Found_missing None (WARN hm (W_requires name))))
                  end
                else if sep =? 61 then Ok (mk_gs optind packed, Some (mk_gret name Found_default None (WARN hm (W_noarg name))))
                else Ok (mk_gs optind packed, Some (mk_gret name (Found i) None None))
            | _ => UB
            end
        end
    end.
  Lemma total_skipn i : (i < length argv)%nat -> exists a, nth_error argv i = Some a /\ total (skipn i argv) = (S (length a) + total (skipn (S i) argv))%nat.
  Proof.
    intros H. destruct (nth_error argv i) as [a|] eqn:E; [|apply nth_error_None in E; lia]. exists a. split; [reflexivity|].
    rewrite (skipn_cons i a E). reflexivity.
  Qed.
  Lemma packed_step c cs i : cstring (c :: cs) -> (i < length argv)%nat ->
    exists st' r e, packed_tail (c :: cs) i = Ok (st', Some r) /\ dispatch opts hm r = Ok (observe hm e) /\ ginv st' /\
      (measure st' < length (c :: cs) + total (skipn (S i) argv))%nat /\
      (forall evs rest, parse_st st' evs rest -> cluster T (c :: cs) (skipn (S i) argv) (e :: evs) rest).
  Proof.
    intros HC HI. unfold packed_tail. rewrite chr_cons, bind_Ok. change (skipn 1 (c :: cs)) with cs. cbv zeta.
    assert (c <> 0) as HC0 by (intros ->; apply HC; left; reflexivity).
    assert (cstring cs) as HCS by (intros H; apply HC; right; exact H).
    destruct (search_short c HC0) as (r & ER & HR). 
    assert (forall i b, nth_error opts i = Some (Some ([45; c], b)) -> rd opts i 1 = Ok [Some ([45; c], b)]) as HRD by (intros; apply rd_one; assumption).
    assert (chr [45; c] (length [45; c]) = Ok 0) as HSEP by reflexivity.
    destruct cs as [|c' cs].
    - (* last character *)
      unfold chr_is. rewrite chr_nil, !bind_Ok. change (0 =? 0) with true. cbv iota. rewrite ER, bind_Ok.
      destruct r as [j|].
      + destruct HR as (b & HN & HK & H61). rewrite (HRD j b HN), bind_Ok, HSEP, bind_Ok. change (0 =? 61) with false. cbv iota. destruct b.
        * destruct (Nat.ltb_spec (S i) (length argv)) as [HL|HL].
          -- destruct (total_skipn (S i) HL) as (a & EA & ET). unfold argvi. rewrite EA, bind_Ok, bind_Ok.
             exists (mk_gs (S (S i)) None), (mk_gret [45; c] (Found j) (Some a) None), (Arg [45; c] a). split; [reflexivity|]. split.
             { unfold dispatch. cbn [r_found r_ch r_arg r_warn]. rewrite (HRD j true HN), bind_Ok, list_eqb_refl. reflexivity. }
             split; [intros p H; discriminate H|]. split; [unfold measure; cbn [g_packed g_optind]; rewrite ET; cbn [length]; lia|].
             intros evs rest HP. unfold parse_st in HP. cbn [g_packed g_optind] in HP. rewrite (skipn_cons (S i) a EA). apply cluster_arg; assumption.
          -- rewrite bind_Ok. exists (mk_gs (S i) None), (mk_gret [45; c] Found_missing None (WARN hm (W_requires [45; c]))), (Missing [45; c]). split; [reflexivity|].
             split; [reflexivity|]. split; [intros p H; discriminate H|]. split; [unfold measure; cbn [g_packed g_optind length]; lia|].
             intros evs rest HP. unfold parse_st in HP. cbn [g_packed g_optind] in HP. rewrite skipn_all2 in * by lia.
             inversion HP; subst. apply cluster_missing; exact HK.
        * exists (mk_gs (S i) None), (mk_gret [45; c] (Found j) None None), (Flag [45; c]). split; [reflexivity|]. split.
          { unfold dispatch. cbn [r_found r_ch r_arg r_warn]. rewrite (HRD j false HN), bind_Ok, list_eqb_refl. reflexivity. }
          split; [intros p H; discriminate H|]. split; [unfold measure; cbn [g_packed g_optind length]; lia|].
          intros evs rest HP. unfold parse_st in HP. cbn [g_packed g_optind] in HP. apply cluster_flag; [exact HK|]. apply cluster_end. exact HP.
      + exists (mk_gs (S i) None), (mk_gret [45; c] Found_default None (WARN hm (W_unknown [45; c]))), (Unknown [45; c]). split; [reflexivity|].
        split; [reflexivity|]. split; [intros p H; discriminate H|]. split; [unfold measure; cbn [g_packed g_optind length]; lia|].
        intros evs rest HP. unfold parse_st in HP. cbn [g_packed g_optind] in HP. apply cluster_unknown; [exact HR|]. apply cluster_end. exact HP.
    - unfold chr_is. rewrite chr_cons, !bind_Ok. 
      assert ((c' =? 0) = false) as -> by (apply N.eqb_neq; intros ->; apply HCS; left; reflexivity). cbv iota. rewrite ER, bind_Ok.
      assert (ginv (mk_gs i (Some (c' :: cs)))) as HG.
      { intros p H. injection H as <-. split; [discriminate|]. split; [exact HCS|exact HI]. }
      destruct r as [j|].
      + destruct HR as (b & HN & HK & H61). rewrite (HRD j b HN), bind_Ok, HSEP, bind_Ok. change (0 =? 61) with false. cbv iota. destruct b.
        * rewrite bind_Ok. exists (mk_gs (S i) None), (mk_gret [45; c] (Found j) (Some (c' :: cs)) None), (Arg [45; c] (c' :: cs)). split; [reflexivity|]. split.
          { unfold dispatch. cbn [r_found r_ch r_arg r_warn]. rewrite (HRD j true HN), bind_Ok, list_eqb_refl. reflexivity. }
          split; [intros p H; discriminate H|]. split; [unfold measure; cbn [g_packed g_optind length]; lia|].
          intros evs rest HP. unfold parse_st in HP. cbn [g_packed g_optind] in HP. apply cluster_attached; assumption.
        * exists (mk_gs i (Some (c' :: cs))), (mk_gret [45; c] (Found j) None None), (Flag [45; c]). split; [reflexivity|]. split.
          { unfold dispatch. cbn [r_found r_ch r_arg r_warn]. rewrite (HRD j false HN), bind_Ok, list_eqb_refl. reflexivity. }
          split; [exact HG|]. split; [unfold measure; cbn [g_packed g_optind length]; lia|].
          intros evs rest HP. unfold parse_st in HP. cbn [g_packed g_optind] in HP. apply cluster_flag; assumption.
      + exists (mk_gs i (Some (c' :: cs))), (mk_gret [45; c] Found_default None (WARN hm (W_unknown [45; c]))), (Unknown [45; c]). split; [reflexivity|].
        split; [reflexivity|]. split; [exact HG|]. split; [unfold measure; cbn [g_packed g_optind length]; lia|].
        intros evs rest HP. unfold parse_st in HP. cbn [g_packed g_optind] in HP. apply cluster_unknown; assumption.
  Qed.
  Lemma getopt_step st : ginv st -> step_ok st.
  Proof.
    intros HI. unfold step_ok. destruct st as [i [p|]].
    - (* in the middle of a group *)
      destruct (HI p eq_refl) as (HP & HC & HL). cbn [g_optind] in HL. right. destruct p as [|c cs]; [contradiction|].
      destruct (packed_step c cs i HC HL) as (st' & r & e & E1 & E2 & E3 & E4 & E5). exists st', r, e.
      split; [|split; [exact E2|split; [exact E3|split; [exact E4|exact E5]]]].
      unfold getopt. cbn [g_optind g_packed]. destruct (Nat.leb_spec (length argv) i); [lia|]. rewrite bind_Ok. exact E1.
    - destruct (Nat.leb_spec (length argv) i) as [HL|HL].
      { left. exists (mk_gs i None). split; [unfold getopt; cbn [g_optind]; destruct (Nat.leb_spec (length argv) i); [reflexivity|lia]|].
        unfold parse_st. cbn [g_packed g_optind]. rewrite skipn_all2 by lia. constructor. }
      destruct (total_skipn i HL) as (a & EA & ET). pose proof (skipn_cons i a EA) as ES.
      assert (cstring a) as HC by (rewrite Forall_forall in HA; apply HA; eapply nth_error_In; exact EA).
      assert (getopt opts hm argv (mk_gs i None) =
        (packed <- (b <- andm (chr_is a 0 45) (andm (chr_isnt a 1 45) (chr_isnt a 1 0)) ;; Ok (if (b : bool) then Some (skipn 1 a) else None)) ;;
         match packed with Some p => packed_tail p i | None => 
           ' (os, packed, optind) <- (b <- andm (chr_is a 0 45) (chr_is a 1 45) ;;
              if (b : bool) then ne <- chr_isnt a 2 0 ;; Ok ((if (ne : bool) then Some a else None), None, S i) else Ok (None, None, i)) ;;
           match os with
           | None => Ok (mk_gs optind packed, None)
           | Some os =>
           f <- searchopt opts os ;;
            match f with
            | None => Ok (mk_gs optind packed, Some (mk_gret os Found_default None (WARN hm (W_unknown os))))
            | Some i =>
                s <- rd opts i 1 ;;
                match s with
                | [Some (name, hasarg)] =>
                    sep <- chr os (length name) ;;
                    if (hasarg : bool) then
                      let '(optarg, packed, optind) :=
                        match packed with Some p => (Some p, None, S optind) | None => (None, None, optind) end in
                      let optarg := if sep =? 61 then Some (skipn (length name + 1) os) else optarg in
                      ' (optarg, optind) <-
                        match optarg with
                        | Some a => Ok (Some a, optind)
                        | None => if Nat.ltb optind (length argv) then a <- argvi argv optind ;; Ok (Some a, S optind) else Ok (None, optind)
                        end ;;
                      match optarg with
                      | Some a => Ok (mk_gs optind packed, Some (mk_gret name (Found i) (Some a) None))
                      | None => Ok (mk_gs optind packed, Some (mk_gret name Found_missing None (WARN hm (W_requires name))))
                      end
                    else if sep =? 61 then Ok (mk_gs optind packed, Some (mk_gret name Found_default None (WARN hm (W_noarg name))))
                    else Ok (mk_gs optind packed, Some (mk_gret name (Found i) None None))
                | _ => UB
                end
            end
           end end)) as EG.
      { unfold getopt. cbn [g_optind g_packed]. destruct (Nat.leb_spec (length argv) i); [lia|]. unfold argvi at 1. rewrite EA, bind_Ok.
        destruct (andm (chr_is a 0 45) (andm (chr_isnt a 1 45) (chr_isnt a 1 0))) as [[]| |]; rewrite ?bind_Ok; try reflexivity.
        unfold argvi at 1. rewrite EA, bind_Ok. reflexivity. }
      rewrite EG. clear EG.
      (* the shapes of an argument *)
      assert (forall x, x = 45 \/ x <> 45) as HD by (intros x; destruct (N.eq_dec x 45); auto).
      destruct a as [|c0 a].
      { left. exists (mk_gs i None). split; [reflexivity|]. unfold parse_st. cbn [g_packed g_optind]. rewrite ES. constructor. }
      destruct (HD c0) as [->|H0].
      2:{ left. exists (mk_gs i None). split.
          - unfold chr_is. rewrite chr_cons, !bind_Ok. assert ((c0 =? 45) = false) as -> by (apply N.eqb_neq; exact H0). reflexivity.
          - unfold parse_st. cbn [g_packed g_optind]. rewrite ES. apply parse_other. exact H0. }
      destruct a as [|c1 a].
      { left. exists (mk_gs i None). split; [reflexivity|]. unfold parse_st. cbn [g_packed g_optind]. rewrite ES. constructor. }
      assert (c1 <> 0) as H10 by (intros ->; apply HC; right; left; reflexivity).
      destruct (HD c1) as [->|H1].
      2:{ (* a group starts *)
          right. assert (cstring (c1 :: a)) as HC1 by (intros H; apply HC; right; exact H).
          destruct (packed_step c1 a i HC1 HL) as (st' & r & e & E1 & E2 & E3 & E4 & E5). exists st', r, e.
          split; [|split; [exact E2|split; [exact E3|split]]].
          - unfold chr_is at 1, chr_isnt at 1 2. change (chr (45 :: c1 :: a) 1) with (Ok c1). rewrite chr_cons, !bind_Ok.
            change (45 =? 45) with true. unfold andm at 1. rewrite bind_Ok. cbv iota. assert ((c1 =? 45) = false) as -> by (apply N.eqb_neq; exact H1).
            assert ((c1 =? 0) = false) as -> by (apply N.eqb_neq; exact H10). cbn [negb]. unfold andm at 1. rewrite !bind_Ok. cbn [skipn]. exact E1.
          - unfold measure at 2. cbn [g_packed g_optind]. rewrite ET. cbn [length] in *. lia.
          - intros evs rest HP. unfold parse_st at 1. cbn [g_packed g_optind]. rewrite ES. apply parse_cluster; [exact H1|]. apply E5, HP. }
      unfold chr_is, chr_isnt at 1 2. change (chr (45 :: 45 :: a) 1) with (Ok 45). rewrite chr_cons, !bind_Ok. change (45 =? 45) with true. cbn [negb]. unfold andm. rewrite !bind_Ok. cbv iota. rewrite ?bind_Ok.
      destruct a as [|c2 a].
      { left. exists (mk_gs (S i) None). split; [reflexivity|]. unfold parse_st. cbn [g_packed g_optind]. rewrite ES. constructor. }
      assert (c2 <> 0) as H20 by (intros ->; apply HC; right; right; left; reflexivity).
      unfold chr_isnt. change (chr (45 :: 45 :: c2 :: a) 2) with (Ok c2). rewrite bind_Ok. assert ((c2 =? 0) = false) as -> by (apply N.eqb_neq; exact H20).
      cbn [negb]. rewrite bind_Ok, bind_Ok. right. set (os := 45 :: 45 :: c2 :: a) in *.
      assert (long_name os) as HLN by (exists c2, a; reflexivity).
      destruct (search_long os HC HLN) as (r & ER & HR). rewrite ER, bind_Ok.
      assert (ginv (mk_gs (S i) None) /\ ginv (mk_gs (S (S i)) None)) as [HG1 HG2] by (split; intros p H; discriminate H).
      assert (measure (mk_gs (S i) None) < measure (mk_gs i None))%nat as HM1 by (unfold measure; cbn [g_packed g_optind]; rewrite ET; lia).
      assert (forall evs rest, parse_st (mk_gs (S i) None) evs rest = parse T (skipn (S i) argv) evs rest) as HPS by reflexivity.
      assert (forall evs rest, parse_st (mk_gs i None) evs rest = parse T (os :: skipn (S i) argv) evs rest) as HPS0 by (intros; unfold parse_st; cbn [g_packed g_optind]; rewrite ES; reflexivity).
      destruct r as [j|].
      + destruct HR as (n & b & HN & HK & HLn & HNE & HO). rewrite (rd_one _ _ _ HN), bind_Ok.
        assert (forall r' e, r' = Found j -> dispatch opts hm (mk_gret n r' e None) = (_ <- (if b then assert_ (match e with Some _ => true | None => false end) else Ok tt) ;; Ok (mk_obs (L_opt n) n e None))) as HDP.
        { intros r' e ->. unfold dispatch. cbn [r_found r_ch r_arg r_warn]. rewrite (rd_one _ _ _ HN), bind_Ok, list_eqb_refl. destruct b; reflexivity. }
        destruct HO as [EO|(v & EO)].
        * (* the name itself *)
          assert (chr os (length n) = Ok 0) as ->.
          { rewrite EO. unfold chr. destruct (Nat.leb_spec (length n) (length n)); [|lia]. rewrite nth_overflow by lia. reflexivity. }
          rewrite bind_Ok. change (0 =? 61) with false. cbv iota. destruct b.
          -- destruct (Nat.ltb_spec (S i) (length argv)) as [HL2|HL2].
             ++ destruct (total_skipn (S i) HL2) as (a2 & EA2 & ET2). unfold argvi. rewrite EA2, !bind_Ok.
                exists (mk_gs (S (S i)) None), (mk_gret n (Found j) (Some a2) None), (Arg n a2). split; [reflexivity|]. split; [rewrite HDP; reflexivity|].
                split; [exact HG2|]. split; [unfold measure in *; cbn [g_packed g_optind] in *; lia|].
                intros evs rest HP. rewrite HPS0, EO, (skipn_cons (S i) a2 EA2). apply parse_arg; assumption.
             ++ rewrite bind_Ok. exists (mk_gs (S i) None), (mk_gret n Found_missing None (WARN hm (W_requires n))), (Missing n). split; [reflexivity|]. split; [reflexivity|].
                split; [exact HG1|]. split; [exact HM1|]. intros evs rest HP. rewrite HPS in HP. rewrite HPS0, EO. rewrite skipn_all2 in * by lia.
                inversion HP; subst. apply parse_missing; assumption.
          -- exists (mk_gs (S i) None), (mk_gret n (Found j) None None), (Flag n). split; [reflexivity|]. split; [rewrite HDP; reflexivity|].
             split; [exact HG1|]. split; [exact HM1|]. intros evs rest HP. rewrite HPS in HP. rewrite HPS0, EO. apply parse_flag; assumption.
        * assert (chr os (length n) = Ok 61) as ->.
          { rewrite EO. unfold chr. rewrite app_length. destruct (Nat.leb_spec (length n) (length n + length (61 :: v))); [|lia]. rewrite app_nth2, Nat.sub_diag by lia. reflexivity. }
          rewrite bind_Ok. change (61 =? 61) with true. cbv iota. destruct b.
          -- assert (skipn (length n + 1) os = v) as ->.
             { rewrite EO. rewrite skipn_app. rewrite skipn_all2 by lia. replace (length n + 1 - length n)%nat with 1%nat by lia. reflexivity. }
             rewrite bind_Ok. exists (mk_gs (S i) None), (mk_gret n (Found j) (Some v) None), (Arg n v). split; [reflexivity|]. split; [rewrite HDP; reflexivity|].
             split; [exact HG1|]. split; [exact HM1|]. intros evs rest HP. rewrite HPS in HP. rewrite HPS0, EO. apply parse_arg_eq; assumption.
          -- exists (mk_gs (S i) None), (mk_gret n Found_default None (WARN hm (W_noarg n))), (Unexpected n). split; [reflexivity|]. split; [reflexivity|].
             split; [exact HG1|]. split; [exact HM1|]. intros evs rest HP. rewrite HPS in HP. rewrite HPS0, EO. apply parse_unexpected; assumption.
      + exists (mk_gs (S i) None), (mk_gret os Found_default None (WARN hm (W_unknown os))), (Unknown os). split; [reflexivity|]. split; [reflexivity|].
        split; [exact HG1|]. split; [exact HM1|]. intros evs rest HP. rewrite HPS in HP. rewrite HPS0.
        destruct HR as [[HNE HNK]|(n & v & EO & HNE & HNK & HSH)]; [apply parse_unknown; assumption|]. rewrite EO. apply parse_unknown_eq; assumption.
  Qed.
  Lemma getopt_loop_ok fuel : forall st, ginv st -> (measure st < fuel)%nat ->
    exists evs ind, getopt_loop opts hm argv fuel st = Ok (map (observe hm) evs, ind) /\ parse_st st evs (skipn ind argv).
  Proof.
    induction fuel as [|fuel IH]; intros st HI HM; [lia|]. cbn [getopt_loop].
    destruct (getopt_step st HI) as [(st' & E & HP)|(st' & r & e & E & ED & HI' & HM' & HP)]; rewrite E, bind_Ok.
    - exists [], (g_optind st'). auto.
    - rewrite ED, bind_Ok. destruct (IH st' HI' ltac:(lia)) as (evs & ind & EL & HPL). rewrite EL, bind_Ok.
      exists (e :: evs), ind. split; [reflexivity|]. apply HP, HPL.
  Qed.
End Step.

(** ** C38 *)
(** For every option table and argument vector the loop terminates without
    undefined behaviour, and what the program sees is what the grammar says:
    the events in order, and optind pointing at the remaining arguments. *)
Theorem C38_parse opts hm argv fuel : good_table (table_of opts) -> Forall cstring argv -> (length (concat argv) + length argv < fuel)%nat ->
  exists evs ind, getopt_loop opts hm argv fuel gs0 = Ok (map (observe hm) evs, ind) /\
    parse (table_of opts) (tl argv) evs (skipn ind argv).
Proof.
  intros HT HA HF. destruct (getopt_loop_ok opts hm argv HT HA fuel gs0) as (evs & ind & E & HP).
  - intros p H. discriminate H.
  - unfold measure. cbn [gs0 g_packed g_optind]. destruct argv as [|a l]; [cbn; lia|].
    assert (total l = (length (concat l) + length l)%nat) as HL.
    { clear. induction l as [|x l IH]; [reflexivity|]. cbn [total fold_right concat length]. fold (total l). rewrite IH, app_length. lia. }
    change (skipn 1 (a :: l)) with l. rewrite HL. cbn [concat length] in HF. rewrite app_length in HF. lia.
  - exists evs, ind. split; [exact E|]. unfold parse_st in HP. cbn [gs0 g_packed g_optind] in HP. destruct argv; exact HP.
Qed.
Print Assumptions C38_parse.
(** The grammar is unambiguous, so this determines events and remainder. *)
Scheme parse_ind2 := Induction for parse Sort Prop with cluster_ind2 := Induction for cluster Sort Prop.
Combined Scheme parse_mutind from parse_ind2, cluster_ind2.
Lemma long_no_eq n v m : ~ In 61 m -> m = n ++ 61 :: v -> False.
Proof. intros H ->. apply H. apply in_or_app. right. left. reflexivity. Qed.
Ltac shapes :=
  repeat match goal with
  | H : long_name _ |- _ => let E := fresh "E" in destruct H as (? & ? & E); first [discriminate E | subst | (injection E; clear E; intros; subst)]
  | H : _ = [45; 45] \/ long_name _ |- _ => destruct H as [H|H]; [first [discriminate H | subst | (injection H; clear H; intros; subst)]|]
  | H : _ :: _ = _ :: _ |- _ => injection H; clear H; intros; subst
  | H : _ = _ :: _ |- _ => discriminate H
  | H : _ :: _ = _ |- _ => discriminate H
  | H : 45 <> 45 |- _ => contradiction (H eq_refl)
  | _ => progress (cbn [app] in *)
  end.
Ltac in61 := repeat first [apply in_or_app; right; left; reflexivity | left; reflexivity | right].
Theorem C38_unambiguous T : good_table T ->
  (forall args e1 r1, parse T args e1 r1 -> forall e2 r2, parse T args e2 r2 -> e1 = e2 /\ r1 = r2).
Proof.
  intros [HND HGN].
  assert (forall n b b', In (n, b) T -> In (n, b') T -> b = b') as HF.
  { clear HGN. induction T as [|[n0 b0] t IH]; [intros ? ? ? []|]. cbn [map fst] in HND. inversion HND as [|? ? H1 H2]; subst.
    intros n b b' [E|HI] [E'|HI'].
    - congruence.
    - injection E as -> ->. exfalso. apply H1. apply (in_map fst) in HI'. exact HI'.
    - injection E' as -> ->. exfalso. apply H1. apply (in_map fst) in HI. exact HI.
    - apply (IH H2 n); assumption. }
  assert (forall n b, known T n b -> not_known T n -> False) as HK by (intros n b H H'; apply (H' b H)).
  assert (forall n, known T n true -> known T n false -> False) as HK2 by (intros n H H'; discriminate (HF n true false H H')).
  refine (proj1 (parse_mutind T
    (fun args e1 r1 _ => forall e2 r2, parse T args e2 r2 -> e1 = e2 /\ r1 = r2)
    (fun cs args e1 r1 _ => forall e2 r2, cluster T cs args e2 r2 -> e1 = e2 /\ r1 = r2)
    _ _ _ _ _ _ _ _ _ _ _ _ _ _ _ _ _ _ _)).
  all: intros.
  all: match goal with
       | H : parse _ _ ?e2 ?r2 |- _ = ?e2 /\ _ = ?r2 => inversion H; clear H; subst
       | H : cluster _ _ _ ?e2 ?r2 |- _ = ?e2 /\ _ = ?r2 => inversion H; clear H; subst
       end.
  all: shapes.
  all: try (split; congruence).
  all: try (exfalso; eauto; fail).
  all: try (match goal with IH : forall e2 r2, parse _ _ e2 r2 -> _, HP : parse _ _ _ _ |- _ => destruct (IH _ _ HP); subst; split; congruence end).
  all: try (match goal with IH : forall e2 r2, cluster _ _ _ e2 r2 -> _, HP : cluster _ _ _ _ _ |- _ => destruct (IH _ _ HP); subst; split; congruence end).
  all: try (match goal with H2 : ?n = _ \/ _ |- _ => destruct H2 as [H2|H2]; [apply (f_equal (@length N)) in H2; cbn [length] in H2; rewrite app_length in H2; cbn [length] in H2; lia|shapes; fail] end).
  all: try (match goal with H : ?a ++ 61 :: _ = ?b ++ 61 :: _ |- _ => apply split_unique in H; [destruct H; subst|intros ?; match goal with H : ~ In 61 _ |- _ => apply H; repeat right; assumption end|intros ?; match goal with H : ~ In 61 _ |- _ => apply H; repeat right; assumption end] end).
  all: try (exfalso; match goal with H : ~ In 61 _ |- _ => apply H; solve [in61] end).
  all: try (exfalso; eauto; fail).
  all: try (match goal with IH : forall e2 r2, parse _ _ e2 r2 -> _, HP : parse _ _ _ _ |- _ => destruct (IH _ _ HP); subst; split; congruence end).
Qed.
Print Assumptions C38_unambiguous.

(** Registration: a list of options with distinct, free slots is accepted
    exactly if every name is of the form -x or --foo and none is given twice;
    the table is then as listed, in the order of the slots. *)
Definition shape_ok (n : list N) : Prop := short_name n \/ long_name n.
Theorem C38_registered_valid l : forall opts opts', register_all opts l = Ok opts' ->
  Forall (fun o => cstring (snd (fst o)) /\ ~ In 61 (snd (fst o))) l -> good_table (table_of opts) -> good_table (table_of opts').
Proof.
  induction l as [|[[ln os] b] l IH]; intros opts opts' E HL HG; cbn [register_all] in E.
  - injection E as <-. exact HG.
  - inversion HL as [|? ? [HC H61] HL']; subst. cbn [fst snd] in HC, H61.
    destruct (getopt_register_opt opts os ln b) as [o1| |] eqn:E1; try discriminate. rewrite bind_Ok in E. refine (IH o1 opts' E HL' _). clear E IH HL HL'.
    unfold getopt_register_opt in E1. destruct (rd opts ln 1) as [old| |] eqn:ER; cbn [bind] in E1; try discriminate.
    destruct old as [|[x|] [|y old]]; cbn [assert_ bind] in E1; try discriminate.
    apply rd_Ok_inv in ER. destruct ER as [HLen ER].
    destruct os as [|c0 os]; [discriminate E1|]. rewrite chr_cons in E1. cbn [bind] in E1.
    destruct (c0 =? 45) eqn:EC0; cbn [negb] in E1; [|discriminate]. apply N.eqb_eq in EC0. subst c0.
    destruct os as [|c1 os]; [discriminate E1|]. change (chr (45 :: c1 :: os) 1) with (Ok c1) in E1. cbn [bind] in E1.
    destruct (c1 =? 0) eqn:EC1; [discriminate|]. apply N.eqb_neq in EC1.
    assert (shape_ok (45 :: c1 :: os) /\ exists f, searchopt opts (45 :: c1 :: os) = Ok f /\ match f with Some _ => Abort | None => wr opts ln [Some (45 :: c1 :: os, b)] end = Ok o1) as [HS (f & EF & E2)].
    { destruct os as [|c2 os].
      - change (chr [45; c1] 2) with (Ok 0) in E1. cbn [bind] in E1. change (0 =? 0) with true in E1. rewrite andb_true_r, andb_false_r, orb_false_r in E1.
        destruct (c1 =? 45) eqn:E45; [discriminate|]. apply N.eqb_neq in E45. split; [left; exists c1; auto|].
        destruct (searchopt opts [45; c1]) as [f| |]; cbn [bind] in E1; try discriminate. exists f. auto.
      - change (chr (45 :: c1 :: c2 :: os) 2) with (Ok c2) in E1. cbn [bind] in E1.
        assert ((c2 =? 0) = false) as E20 by (apply N.eqb_neq; intros ->; apply HC; right; right; left; reflexivity). rewrite E20 in E1.
        rewrite andb_false_r, orb_false_l, andb_true_r in E1. destruct (c1 =? 45) eqn:E45; cbn [negb] in E1; [|discriminate]. apply N.eqb_eq in E45. subst c1.
        split; [right; exists c2, os; reflexivity|].
        destruct (searchopt opts (45 :: 45 :: c2 :: os)) as [f| |]; cbn [bind] in E1; try discriminate. exists f. auto. }
    clear E1. destruct f as [f|]; [discriminate|]. set (nm := 45 :: c1 :: os) in *. clearbody nm.
    destruct (searchopt_spec opts nm HC 0) as (r & Er & Hr). unfold searchopt in EF. assert (r = None) as -> by congruence.
    apply wr_Ok_inv in E2. destruct E2 as [_ ->].
    assert (exists A B, opts = A ++ None :: B /\ upd opts ln [Some (nm, b)] = A ++ Some (nm, b) :: B) as (A & B & EA & EU).
    { exists (firstn ln opts), (skipn (S ln) opts). split; [|unfold upd; cbn [length]; replace (ln + 1)%nat with (S ln) by lia; reflexivity].
      rewrite <- (firstn_skipn ln opts) at 1. f_equal. unfold sub in ER. destruct (skipn ln opts) as [|x t] eqn:EK; [discriminate ER|].
      cbn [firstn] in ER. injection ER as <-. f_equal. replace (S ln) with (1 + ln)%nat by lia. rewrite <- skipn_skipn, EK. reflexivity. }
    rewrite EU. unfold table_of in *. rewrite flat_map_app. cbn [flat_map app].
    rewrite EA, flat_map_app in HG. cbn [flat_map app] in HG. destruct HG as [HN HF]. split.
    + rewrite map_app in HN |- *. cbn [map fst]. apply NoDup_Add with (a := nm) (l := map fst (flat_map (fun s : option (list N * bool) => match s with Some o => [o] | None => [] end) A) ++ map fst (flat_map (fun s : option (list N * bool) => match s with Some o => [o] | None => [] end) B)).
      * apply Add_app.
      * split; [exact HN|]. rewrite <- map_app, <- flat_map_app. intros HI. apply in_map_iff in HI. destruct HI as ([n' b'] & <- & HI). cbn [fst] in *.
        assert (In (Some (n', b')) opts) as HI2.
        { rewrite in_flat_map in HI. destruct HI as ([o|] & HI & HO); [|contradiction]. destruct HO as [->|[]]. rewrite EA. apply in_app_or in HI. apply in_or_app. destruct HI; [left; assumption|right; right; assumption]. }
        destruct (Hr _ _ HI2) as [HX _]. apply HX. reflexivity.
    + apply Forall_app in HF. destruct HF as [HF1 HF2]. apply Forall_app. split; [exact HF1|]. constructor; [|exact HF2]. cbn [fst]. split; [exact HS|exact H61].
Qed.
Print Assumptions C38_registered_valid.
(** Hypotheses met: a table with short and long options, and a command line
    using every form. *)
Example C38_hyps : exists opts, register_all (getopt_setrange 6) [(0%nat, [45; 97], false); (2%nat, [45; 99], true); (3%nat, [45; 45; 102; 111; 111], true)] = Ok opts /\
  good_table (table_of opts) /\
  getopt_loop opts true [[112]; [45; 97; 99; 98]; [45; 45; 102; 111; 111]; [45; 45]; [45; 122]; [45; 99]] 100 gs0 =
    Ok (map (observe true) [Flag [45; 97]; Arg [45; 99] [98]; Arg [45; 45; 102; 111; 111] [45; 45]; Unknown [45; 122]; Missing [45; 99]], 6%nat).
Proof.
  eexists. split; [reflexivity|]. split; [|vm_compute; reflexivity].
  refine (C38_registered_valid [(0%nat, [45; 97], false); (2%nat, [45; 99], true); (3%nat, [45; 45; 102; 111; 111], true)] (getopt_setrange 6) _ eq_refl _ _).
  - repeat (apply Forall_cons; [split; unfold cstring; cbn; intuition discriminate|]). apply Forall_nil.
  - split; constructor.
Qed.
Definition Prop_getopt_all := (C38_parse, C38_unambiguous, C38_registered_valid).
Print Assumptions Prop_getopt_all.
