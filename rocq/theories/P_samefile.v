(** Proofs about M_samefile. *)
From Verif Require Import Base SpecBytes SpecSHA SpecScrypt SpecScryptAPI SpecAES SpecDRBG SpecFormat SpecStream
  M_endian P_endian M_sha256 P_sha256 M_smix M_aes_hw M_aesctr P_aesctr P_scrypt P_scrypt_ref
  M_scrypt_sel P_scrypt_sel Prop_scrypt M_verify P_verify M_entropy P_entropy M_machine M_double M_memlimit M_cpuperf
  M_humansize M_params M_stdio P_stdio M_scryptenc SpecScryptenc P_scryptenc P_scryptenc2 P_scryptenc3 P_scryptenc4 P_aesctr_mem M_samefile.
Local Opaque ENCBLOCK.

Lemma firstn_two {A} k n (X : list A) : (k <= n)%nat -> firstn k X ++ firstn (n - k) (skipn k X) = firstn n X.
Proof.
  intros H. rewrite <- (firstn_skipn k X) at 3. rewrite firstn_app, firstn_firstn, Nat.min_r by lia.
  rewrite firstn_length. destruct (Nat.le_ge_cases k (length X)).
  - rewrite Nat.min_l by lia. reflexivity.
  - rewrite !(skipn_all2 X), !firstn_nil by lia. reflexivity.
Qed.
Lemma skipn_skipn' {A} : forall l k (X : list A), skipn k (skipn l X) = skipn (l + k) X.
Proof. induction l as [|l IH]; intros k X; [reflexivity|]. destruct X; [rewrite !skipn_nil; reflexivity|]. apply IH. Qed.

(** A stream about to deliver [a]. *)
Definition fi_of (a : bytes) : instream := mk_in (match a with [] => [] | _ => [(a, false)] end) false.
Lemma fread1_fi n a : fread1 n (fi_of a) = (firstn n a, fi_of (skipn n a)).
Proof.
  destruct a as [|x a]; [destruct n; reflexivity|]. unfold fread1, fi_of at 1. cbn [i_pieces i_err]. rewrite andb_false_r, orb_false_r.
  destruct (Nat.ltb_spec n (length (x :: a))) as [H|H].
  - f_equal. assert (skipn n (x :: a) <> []) as HN by (intros E; apply (f_equal (@length N)) in E; rewrite skipn_length in E; cbn [length] in *; lia).
    unfold fi_of. destruct (skipn n (x :: a)); [congruence|reflexivity].
  - rewrite firstn_all2, skipn_all2 by lia. reflexivity.
Qed.
Lemma fread_n_fi n a : (0 < n)%nat -> fread_n n (fi_of a) = (firstn n a, Nat.leb n (length a), fi_of (skipn n a)).
Proof.
  intros H. destruct n as [|n]; [lia|]. destruct a as [|x a]; [reflexivity|]. unfold fread_n, fi_of at 1 2. cbn [i_pieces i_err]. cbn [fread_all]. rewrite andb_false_r, !orb_false_r.
  destruct (Nat.ltb_spec (S n) (length (x :: a))) as [H1|H1].
  - destruct (Nat.leb_spec (S n) (length (x :: a))); [|lia]. f_equal.
    assert (skipn (S n) (x :: a) <> []) as HN by (intros E; apply (f_equal (@length N)) in E; rewrite skipn_length in E; cbn [length] in *; lia).
    unfold fi_of. destruct (skipn (S n) (x :: a)); [congruence|reflexivity].
  - destruct (Nat.eqb_spec (S n) (length (x :: a))) as [E|E].
    + rewrite firstn_all2, skipn_all2 by lia. destruct (Nat.leb_spec (S n) (length (x :: a))); [reflexivity|lia].
    + assert (Nat.eqb (length (x :: a)) 0 = false) as -> by reflexivity.
      destruct (S n - length (x :: a))%nat as [|m] eqn:EM; [lia|]. cbn [fread_all]. rewrite app_nil_r, firstn_all2, skipn_all2 by lia.
      destruct (Nat.leb_spec (S n) (length (x :: a))); [lia|reflexivity].
Qed.
Lemma in_size_fi a pend disk pos : in_size (fi_of a) = of_size (mk_one disk pos a pend).
Proof. unfold in_size, fi_of, of_size. cbn [of_ahead]. destruct a; cbn [i_pieces fold_right fst]; [reflexivity|]. f_equal. lia. Qed.

Lemma of_fwrite_all flush d s : of_disk (of_fwrite flush d s) ++ of_pend (of_fwrite flush d s) = of_disk s ++ of_pend s ++ d.
Proof. unfold of_fwrite. cbn [of_disk of_pend]. apply firstn_skipn. Qed.

Section Same.
  Context (chunk : nat -> nat).
  (** Nothing more to be read from the disk. *)
  Lemma of_fread_eof n s : (length (of_disk s) <= of_pos s)%nat ->
    of_fread chunk n s = Ok (firstn n (of_ahead s), mk_one (of_disk s) (of_pos s) (skipn n (of_ahead s)) (of_pend s)).
  Proof.
    intros H. unfold of_fread. cbn [of_read]. destruct (Nat.leb_spec n (length (of_ahead s))); [reflexivity|].
    rewrite skipn_all2 by exact H. rewrite firstn_nil. cbn [length Nat.eqb]. rewrite firstn_all2, skipn_all2 by lia. reflexivity.
  Qed.
  (** Reading a file nobody has written to. *)
  Definition reading (D : bytes) (l : nat) (s : one_file) : Prop :=
    of_disk s = D /\ of_pend s = [] /\ (l + length (of_ahead s) = of_pos s)%nat /\ (of_pos s <= length D)%nat /\ of_ahead s = sub D l (length (of_ahead s)).
  Lemma of_read_ok D : forall fuel n l s, reading D l s -> (n - length (of_ahead s) < fuel)%nat -> exists s',
    of_read chunk fuel n s = Ok (firstn n (skipn l D), s') /\ reading D (l + length (firstn n (skipn l D))) s' /\ (of_pos s <= of_pos s')%nat.
  Proof.
    induction fuel as [|f IH]; intros n l s HR HF; [lia|]. pose proof HR as (R1 & R2 & R3 & R4 & R5). cbn [of_read].
    destruct (Nat.leb_spec n (length (of_ahead s))) as [H|H].
    - assert (firstn n (of_ahead s) = firstn n (skipn l D)) as EA.
      { rewrite R5. unfold sub. rewrite firstn_firstn. f_equal. lia. }
      eexists. split; [rewrite EA; reflexivity|]. rewrite <- EA, firstn_length, Nat.min_l by lia. split; [|cbn [of_pos]; lia].
      unfold reading. cbn [of_disk of_pend of_ahead of_pos]. rewrite skipn_length. repeat split; auto; try lia.
      rewrite R5 at 1. unfold sub. rewrite skipn_firstn_comm, skipn_skipn'. f_equal; f_equal; lia.
    - rewrite R1. set (c := firstn (Nat.max 1 (chunk (of_pos s))) (skipn (of_pos s) D)).
      assert (length c = Nat.min (Nat.max 1 (chunk (of_pos s))) (length D - of_pos s)) as LC by (unfold c; rewrite firstn_length, skipn_length; reflexivity).
      assert (c = sub D (of_pos s) (length c)) as EC.
      { rewrite LC. unfold c, sub. destruct (Nat.le_ge_cases (Nat.max 1 (chunk (of_pos s))) (length D - of_pos s)).
        - rewrite Nat.min_l by lia. reflexivity.
        - rewrite Nat.min_r by lia. rewrite !firstn_all2 by (rewrite skipn_length; lia). reflexivity. }
      destruct (Nat.eqb_spec (length c) 0) as [E0|E0].
      + assert (of_pos s = length D) as EP by lia.
        assert (firstn n (skipn l D) = of_ahead s) as EA.
        { rewrite R5. unfold sub. rewrite !firstn_all2; [reflexivity| |]; rewrite skipn_length; lia. }
        eexists. split; [rewrite EA; reflexivity|]. rewrite EA. split; [|cbn [of_pos]; lia].
        unfold reading. cbn [of_disk of_pend of_ahead of_pos length]. repeat split; auto; lia.
      + assert (reading D (of_pos s) (mk_one D (of_pos s + length c) c (of_pend s))) as HR1.
        { unfold reading. cbn [of_disk of_pend of_ahead of_pos]. repeat split; auto. lia. }
        destruct (IH (n - length (of_ahead s))%nat _ _ HR1) as (s' & E & HR' & HP).
        { cbn [of_ahead]. lia. }
        rewrite E, bind_Ok. cbv beta iota.
        assert (of_ahead s ++ firstn (n - length (of_ahead s)) (skipn (of_pos s) D) = firstn n (skipn l D)) as EA.
        { rewrite <- (firstn_two (length (of_ahead s)) n (skipn l D)) by lia. rewrite skipn_skipn'.
          rewrite R3. f_equal. exact R5. }
        exists s'. split; [rewrite EA; reflexivity|]. split; [|cbn [of_pos] in HP; lia].
        rewrite <- EA, app_length. replace (l + (length (of_ahead s) + length (firstn (n - length (of_ahead s)) (skipn (of_pos s) D))))%nat
          with (of_pos s + length (firstn (n - length (of_ahead s)) (skipn (of_pos s) D)))%nat by lia. exact HR'.
  Qed.
  Lemma of_fread_ok D n l s : reading D l s -> exists s', of_fread chunk n s = Ok (firstn n (skipn l D), s') /\
    reading D (l + length (firstn n (skipn l D))) s' /\ (of_pos s <= of_pos s')%nat.
  Proof. intros H. apply of_read_ok; [exact H|lia]. Qed.
  (** How far the input stream has read when the header is complete. *)
  Lemma of_fread_least D n l s s' x : reading D l s -> (length (of_ahead s) < n)%nat -> of_fread chunk n s = Ok (x, s') ->
    (of_pos s + Nat.min (Nat.max 1 (chunk (of_pos s))) (length D - of_pos s) <= of_pos s')%nat.
  Proof.
    intros HR HN E. pose proof HR as (R1 & R2 & R3 & R4 & R5). unfold of_fread in E.
    remember (S n) as m eqn:Em. cbn [of_read] in E. destruct (Nat.leb_spec n (length (of_ahead s))) as [H|H]; [lia|].
    rewrite R1 in E. set (c := firstn (Nat.max 1 (chunk (of_pos s))) (skipn (of_pos s) D)) in *.
    assert (length c = Nat.min (Nat.max 1 (chunk (of_pos s))) (length D - of_pos s)) as LC by (unfold c; rewrite firstn_length, skipn_length; reflexivity).
    rewrite <- LC. destruct (Nat.eqb_spec (length c) 0) as [E0|E0].
    - injection E as <- <-. cbn [of_pos]. lia.
    - assert (c = sub D (of_pos s) (length c)) as EC.
      { rewrite LC. unfold c, sub. destruct (Nat.le_ge_cases (Nat.max 1 (chunk (of_pos s))) (length D - of_pos s)).
        - rewrite Nat.min_l by lia. reflexivity.
        - rewrite Nat.min_r by lia. rewrite !firstn_all2 by (rewrite skipn_length; lia). reflexivity. }
      assert (reading D (of_pos s) (mk_one D (of_pos s + length c) c (of_pend s))) as HR1.
      { unfold reading. cbn [of_disk of_pend of_ahead of_pos]. repeat split; auto. lia. }
      destruct (of_read_ok D m (n - length (of_ahead s))%nat _ _ HR1) as (s2 & E2 & HR' & HP); [cbn [of_ahead]; lia|].
      rewrite E2, bind_Ok in E. injection E as <- <-. cbn [of_pos] in HP. exact HP.
  Qed.
  Lemma of_read_most D B : (1 <= B)%nat -> (forall i, chunk i <= B)%nat -> forall fuel n l s x s', reading D l s ->
    of_read chunk fuel n s = Ok (x, s') -> (of_pos s' <= of_pos s \/ of_pos s' < l + n + B)%nat.
  Proof.
    intros HB HC. induction fuel as [|f IH]; intros n l s x s' HR E; pose proof HR as (R1 & R2 & R3 & R4 & R5); cbn [of_read] in E;
      (destruct (Nat.leb_spec n (length (of_ahead s))) as [H|H]; [injection E as <- <-; left; cbn [of_pos]; lia|]); [discriminate|].
    rewrite R1 in E. set (c := firstn (Nat.max 1 (chunk (of_pos s))) (skipn (of_pos s) D)) in *.
    assert (length c = Nat.min (Nat.max 1 (chunk (of_pos s))) (length D - of_pos s)) as LC by (unfold c; rewrite firstn_length, skipn_length; reflexivity).
    destruct (Nat.eqb_spec (length c) 0) as [E0|E0].
    - injection E as <- <-. left. cbn [of_pos]. lia.
    - assert (c = sub D (of_pos s) (length c)) as EC.
      { rewrite LC. unfold c, sub. destruct (Nat.le_ge_cases (Nat.max 1 (chunk (of_pos s))) (length D - of_pos s)).
        - rewrite Nat.min_l by lia. reflexivity.
        - rewrite Nat.min_r by lia. rewrite !firstn_all2 by (rewrite skipn_length; lia). reflexivity. }
      assert (reading D (of_pos s) (mk_one D (of_pos s + length c) c (of_pend s))) as HR1.
      { unfold reading. cbn [of_disk of_pend of_ahead of_pos]. repeat split; auto. lia. }
      apply bind_inv in E. destruct E as ([y s2] & E2 & E). cbv beta iota in E. injection E as _ <-.
      specialize (HC (of_pos s)). destruct (IH _ _ _ _ _ HR1 E2) as [K|K]; cbn [of_pos] in K; lia.
  Qed.

  Lemma of_fread_most D B n l s x s' : (1 <= B)%nat -> (forall i, chunk i <= B)%nat -> reading D l s -> of_fread chunk n s = Ok (x, s') ->
    (of_pos s' <= of_pos s \/ of_pos s' < l + n + B)%nat.
  Proof. intros HB HC HR E. exact (of_read_most D B HB HC _ _ _ _ _ _ HR E). Qed.
  Local Opaque of_fread.

  (** The header comes from the first [of_pos s'] bytes of the file. *)
  Lemma sf_header_ok D : exists rc hd s' l, sf_load_header chunk (open_rb D) = Ok (rc, hd, s') /\ reading D l s' /\ load_header (fi_of (firstn (of_pos s') D)) = (rc, hd, fi_of (of_ahead s')) /\ (rc = SCRYPT_OK -> l = 96%nat) /\ exists g, load_header (fi_of D) = (rc, hd, g).
  Proof.
    assert (reading D 0 (open_rb D)) as H0 by (unfold reading, open_rb; cbn [of_disk of_pend of_ahead of_pos length]; repeat split; auto; lia).
    destruct (of_fread_ok D 7 0 _ H0) as (s1 & E1 & R1 & P1). cbn [skipn] in E1, R1. unfold sf_load_header. rewrite E1, bind_Ok. cbv beta iota.
    rewrite Nat.add_0_l in R1.
    assert (forall k, (of_pos s1 <= k)%nat -> firstn 7 (firstn k D) = firstn 7 D) as F7.
    { intros k Hk. rewrite firstn_firstn. destruct R1 as (_ & _ & R3 & R4 & _). rewrite firstn_length in R3.
      destruct (Nat.le_ge_cases 7 (length D)); [f_equal; lia|]. rewrite !firstn_all2 by lia. reflexivity. }
    assert (forall l s, reading D l s -> skipn l (firstn (of_pos s) D) = of_ahead s) as FA.
    { intros l s (_ & _ & R3 & R4 & R5). rewrite skipn_firstn_comm. rewrite R5. unfold sub. f_equal. lia. }
    assert (forall k, (of_pos s1 <= k <= length D)%nat -> Nat.leb 7 (length (firstn k D)) = Nat.leb 7 (length D)) as L7.
    { intros k Hk. destruct R1 as (_ & _ & R3 & R4 & _). rewrite firstn_length in R3. rewrite firstn_length.
      destruct (Nat.leb_spec 7 (length D)); [apply Nat.leb_le; lia|apply Nat.leb_gt; lia]. }
    assert (of_pos s1 <= length D)%nat as HP1 by apply R1.
    assert (forall k, load_header (fi_of (firstn k D)) =
      (let '(h1, ok, fi) := (firstn 7 (firstn k D), Nat.leb 7 (length (firstn k D)), fi_of (skipn 7 (firstn k D))) in
       if negb ok then (if ferror fi then SCRYPT_ERDFILE else SCRYPT_EINVAL, [], fi) else
       if negb (list_eqb (firstn 6 h1) magic) then (SCRYPT_EINVAL, [], fi) else
       if negb (sel h1 6 =? 0) then (SCRYPT_EVERSION, [], fi) else
       let '(h2, ok, fi) := (firstn 89 (skipn 7 (firstn k D)), Nat.leb 89 (length (skipn 7 (firstn k D))), fi_of (skipn 89 (skipn 7 (firstn k D)))) in
       if negb ok then (if ferror fi then SCRYPT_ERDFILE else SCRYPT_EINVAL, [], fi) else
       (SCRYPT_OK, h1 ++ h2, fi))) as ELH.
    { intros k. unfold load_header. rewrite fread_n_fi by lia. cbv beta iota. rewrite fread_n_fi by lia. reflexivity. }
    assert (skipn 7 (firstn (of_pos s1) D) = of_ahead s1 \/ (length D < 7)%nat) as A1.
    { destruct (Nat.le_ge_cases 7 (length D)) as [H|H]; [left|destruct (Nat.eq_dec (length D) 7); [left|right; lia]];
        rewrite firstn_length, Nat.min_l in R1 by lia; apply FA, R1. }
    assert (length D < 7 -> of_ahead s1 = [])%nat as A2.
    { intros H. destruct R1 as (_ & _ & R3 & R4 & _). rewrite firstn_length in R3. destruct (of_ahead s1); [reflexivity|cbn [length] in R3; lia]. }
    pose proof (ELH (length D)) as ELD. rewrite firstn_all in ELD. rewrite skipn_length in ELD.
    rewrite firstn_length. replace (Nat.ltb (Nat.min 7 (length D)) 7) with (negb (Nat.leb 7 (length D))).
    2:{ destruct (Nat.leb_spec 7 (length D)); symmetry; cbn [negb]; [apply Nat.ltb_ge|apply Nat.ltb_lt]; lia. }
    destruct (Nat.leb_spec 7 (length D)) as [H7|H7]; cbn [negb].
    2:{ exists SCRYPT_EINVAL, [], s1. eexists. split; [reflexivity|]. split; [exact R1|]. split; [|split; [discriminate|rewrite ELD; cbv iota beta; cbn [negb]; rewrite ?EM, ?EV; eexists; reflexivity]].
        rewrite ELH, L7 by lia. cbn [negb]. rewrite skipn_all2 by (rewrite firstn_length; lia). rewrite A2 by exact H7. reflexivity. }
    destruct A1 as [A1|A1]; [|lia].
    destruct (negb (list_eqb (firstn 6 (firstn 7 D)) magic)) eqn:EM.
    { exists SCRYPT_EINVAL, [], s1. eexists. split; [reflexivity|]. split; [exact R1|]. split; [|split; [discriminate|rewrite ELD; cbv iota beta; cbn [negb]; rewrite ?EM, ?EV; eexists; reflexivity]].
      rewrite ELH, L7, F7, A1 by lia. cbv iota beta. cbn [negb]. rewrite EM. reflexivity. }
    destruct (negb (sel (firstn 7 D) 6 =? 0)) eqn:EV.
    { exists SCRYPT_EVERSION, [], s1. eexists. split; [reflexivity|]. split; [exact R1|]. split; [|split; [discriminate|rewrite ELD; cbv iota beta; cbn [negb]; rewrite ?EM, ?EV; eexists; reflexivity]].
      rewrite ELH, L7, F7, A1 by lia. cbv iota beta. cbn [negb]. rewrite EM, EV. reflexivity. }
    rewrite firstn_length, Nat.min_l in R1 by lia.
    destruct (of_fread_ok D 89 7 _ R1) as (s2 & E2 & R2 & P2). rewrite E2, bind_Ok. cbv beta iota.
    assert (of_pos s2 <= length D)%nat as HP2 by apply R2.
    assert (length (firstn 89 (skipn 7 D)) = Nat.min 89 (length D - 7)) as L89 by (rewrite firstn_length, skipn_length; reflexivity).
    rewrite L89 in R2 |- *.
    assert (7 + Nat.min 89 (length D - 7) <= of_pos s2)%nat as HP3 by (destruct R2 as (_ & _ & R3 & _); lia).
    destruct (Nat.ltb_spec (Nat.min 89 (length D - 7)) 89) as [H89|H89].
    - exists SCRYPT_EINVAL, [], s2. eexists. split; [reflexivity|]. split; [exact R2|]. split; [|split; [discriminate|rewrite ELD; cbv iota beta; cbn [negb]; rewrite ?EM, ?EV; rewrite (proj2 (Nat.leb_gt _ _)) by lia; eexists; reflexivity]].
      rewrite ELH, L7, F7 by lia. cbv iota beta. cbn [negb]. rewrite EM, EV.
      rewrite skipn_length, firstn_length. rewrite (proj2 (Nat.leb_gt _ _)) by lia. cbn [negb ferror fi_of i_err].
      rewrite skipn_all2 by (rewrite skipn_length, firstn_length; lia).
      assert (of_ahead s2 = []) as -> by (destruct R2 as (_ & _ & R3 & _); destruct (of_ahead s2); [reflexivity|cbn [length] in R3; lia]). reflexivity.
    - exists SCRYPT_OK, (firstn 7 D ++ firstn 89 (skipn 7 D)), s2, 96%nat. split; [reflexivity|].
      assert (reading D 96 s2) as R96 by (replace 96%nat with (7 + Nat.min 89 (length D - 7))%nat by lia; exact R2).
      split; [exact R96|]. split; [|split; [reflexivity|rewrite ELD; cbv iota beta; cbn [negb]; rewrite ?EM, ?EV; rewrite (proj2 (Nat.leb_le _ _)) by lia; eexists; reflexivity]].
      rewrite ELH, L7, F7 by lia. cbv iota beta. cbn [negb]. rewrite EM, EV.
      rewrite skipn_length, firstn_length. rewrite (proj2 (Nat.leb_le _ _)) by lia. cbn [negb].
      rewrite skipn_skipn'. cbn [Nat.add]. rewrite (FA _ _ R96). do 3 f_equal.
      rewrite !skipn_firstn_comm, firstn_firstn. f_equal. lia.
  Qed.

  Lemma open_reading D : reading D 0 (open_rb D).
  Proof. unfold reading, open_rb. cbn [of_disk of_pend of_ahead of_pos length]. repeat split; auto; lia. Qed.
  Lemma sf_header_least D rc hd s : sf_load_header chunk (open_rb D) = Ok (rc, hd, s) ->
    (Nat.min (Nat.max 1 (chunk 0)) (length D) <= of_pos s)%nat.
  Proof.
    intros EH. pose proof (open_reading D) as H0. unfold sf_load_header in EH. apply bind_inv in EH. destruct EH as ([h1 s1] & E1 & EH). cbv beta iota in EH.
    assert (length (of_ahead (open_rb D)) < 7)%nat as HA by (cbn; lia).
    assert (Nat.min (Nat.max 1 (chunk 0)) (length D) <= of_pos s1)%nat as HL.
    { pose proof (of_fread_least D 7 0 _ _ _ H0 HA E1) as HL. cbn [open_rb of_pos] in HL. lia. }
    destruct (of_fread_ok D 7 0 _ H0) as (s1' & E1' & R1 & _). rewrite E1 in E1'. assert (s1' = s1) as -> by congruence. clear E1' E1 H0 HA.
    destruct (Nat.ltb (length h1) 7). { assert (s = s1) as -> by congruence. exact HL. }
    destruct (negb (list_eqb (firstn 6 h1) magic)). { assert (s = s1) as -> by congruence. exact HL. }
    destruct (negb (sel h1 6 =? 0)). { assert (s = s1) as -> by congruence. exact HL. }
    destruct (of_fread_ok D 89 _ _ R1) as (s2 & E2 & R2 & P2). apply bind_inv in EH. destruct EH as ([h2 s3] & E3 & EH). rewrite E2 in E3.
    assert (s3 = s2) as -> by congruence. clear E2 E3. cbv beta iota in EH.
    assert (s = s2) as -> by (destruct (Nat.ltb (length h2) 89); congruence). lia.
  Qed.
  Lemma sf_header_most D B rc hd s : (1 <= B)%nat -> (forall i, chunk i <= B)%nat -> sf_load_header chunk (open_rb D) = Ok (rc, hd, s) ->
    (of_pos s < 96 + B)%nat.
  Proof.
    intros HB HC EH. pose proof (open_reading D) as H0. unfold sf_load_header in EH. apply bind_inv in EH. destruct EH as ([h1 s1] & E1 & EH). cbv beta iota in EH.
    assert (of_pos s1 < 7 + B)%nat as HM.
    { pose proof (of_fread_most D B _ _ _ _ _ HB HC H0 E1) as HM. cbn [open_rb of_pos] in HM. lia. }
    destruct (of_fread_ok D 7 0 _ H0) as (s1' & E1' & R1 & _). rewrite E1 in E1'. assert (s1' = s1) as -> by congruence. clear E1' E1 H0.
    assert (length (firstn 7 (skipn 0 D)) <= 7)%nat as L7 by (rewrite firstn_length; lia).
    destruct (Nat.ltb (length h1) 7). { assert (s = s1) as -> by congruence. lia. }
    destruct (negb (list_eqb (firstn 6 h1) magic)). { assert (s = s1) as -> by congruence. lia. }
    destruct (negb (sel h1 6 =? 0)). { assert (s = s1) as -> by congruence. lia. }
    apply bind_inv in EH. destruct EH as ([h2 s2] & E2 & EH). cbv beta iota in EH.
    pose proof (of_fread_most D B _ _ _ _ _ HB HC R1 E2) as HM2.
    assert (s = s2) as -> by (destruct (Nat.ltb (length h2) 89); congruence). lia.
  Qed.

  Section Loops.
    Context (flush : nat -> nat) (M : machine).
    Lemma sf_dec_loop_ok key : forall fuel AES hctx have s fo pos eof AES' hctx' buf fi' fo',
      stream_at (m_aes M) key 0 pos AES -> pos + N.of_nat (length have) + N.of_nat (length (of_ahead s)) < 2 ^ 64 -> (length have <= 32)%nat ->
      (length (of_disk s) + length (of_pend s) + length have + length (of_ahead s) <= of_pos s)%nat ->
      o_plan fo = [] -> o_data fo = of_disk s ++ of_pend s ->
      dec_loop M fuel AES hctx have (fi_of (of_ahead s)) fo = Ok (eof, AES', hctx', buf, fi', fo') ->
      exists s', sf_dec_loop chunk flush M fuel AES hctx have s = Ok (AES', hctx', buf, s') /\ eof = true /\ i_err fi' = false /\ o_data fo' = of_disk s' ++ of_pend s'.
    Proof.
      induction fuel as [|f IH]; intros AES hctx have s fo pos eof AES' hctx' buf fi' fo' HS HP HL HI HO HD E; [discriminate|].
      cbn [dec_loop] in E. cbn [sf_dec_loop]. pose proof ENCBLOCK_pos as HEB. rewrite fread1_fi in E.
      rewrite of_fread_eof by lia. rewrite bind_Ok. cbv beta iota in E |- *.
      set (n := (ENCBLOCK + 32 - length have)%nat) in *. set (d := firstn n (of_ahead s)) in *.
      destruct (Nat.eqb_spec (length d) 0) as [E0|E0].
      - injection E as <- <- <- <- <- <-. eexists. split; [reflexivity|]. cbn [fi_of i_err of_disk of_pend]. auto.
      - assert (length d + length (skipn n (of_ahead s)) = length (of_ahead s))%nat as LD by (unfold d; rewrite <- app_length, firstn_skipn; reflexivity).
        set (ah := skipn n (of_ahead s)) in *. clearbody d ah n.
        assert (length (have ++ d) = length have + length d)%nat as LB by apply app_length.
        destruct (Nat.leb_spec (length (have ++ d)) 32) as [H32|H32].
        + eapply (IH _ _ _ (mk_one (of_disk s) (of_pos s) ah (of_pend s))) in E; cbn [of_ahead of_disk of_pend of_pos]; eauto; lia.
        + apply bind_inv in E. destruct E as (a & EA & E). rewrite EA, bind_Ok.
          assert (length a = length (have ++ d) - 32)%nat as LA by (apply rd_Ok_inv in EA; destruct EA as (K & ->); apply sub_length; lia).
          apply bind_inv in E. destruct E as (c1 & EC & E). rewrite EC, bind_Ok.
          destruct (stream_ok (m_aes M) (m_hi M) key 0 pos AES a HS) as (AES1 & E1 & HS1); [lia|].
          rewrite E1, bind_Ok in E. rewrite E1, bind_Ok. cbv beta iota in E |- *.
          unfold fwrite in E. rewrite HO in E. cbv beta iota in E. cbn [negb] in E.
          apply bind_inv in E. destruct E as (tl & ET & E). rewrite ET, bind_Ok.
          assert (length tl = 32%nat) as LT by (apply rd_Ok_inv in ET; destruct ET as (K & ->); apply sub_length; lia).
          assert (length (aes_ctr key 0 pos a) = length a) as LP by apply aes_ctr_length.
          set (s2 := of_fwrite flush (aes_ctr key 0 pos a) (mk_one (of_disk s) (of_pos s) ah (of_pend s))).
          assert (of_disk s2 ++ of_pend s2 = of_disk s ++ of_pend s ++ aes_ctr key 0 pos a) as E2 by (unfold s2; rewrite of_fwrite_all; reflexivity).
          assert (of_ahead s2 = ah /\ of_pos s2 = of_pos s) as [EA2 EP2] by (split; reflexivity). clearbody s2.
          pose proof (f_equal (@length N) E2) as E3. rewrite !app_length in E3.
          rewrite <- EA2 in E, LD. eapply (IH _ _ _ s2) in E; eauto; try lia.
          cbn [o_data]. rewrite E2, HD, app_assoc. reflexivity.
    Qed.
  End Loops.
End Same.

(** ** The functions *)
From Verif Require Import P_scryptenc5 P_scryptenc8 P_scryptenc9 P_scryptenc_ovl.
Local Opaque of_fread.
Section Files.
  Context (chunk flush : nat -> nat) (M : machine) (cfg : clk_cfg).
  Lemma enc_loop_end AES hctx fo : enc_loop M (in_size (mk_in [] false)) AES hctx (mk_in [] false) fo = Ok (true, AES, hctx, mk_in [] false, fo).
  Proof. reflexivity. Qed.
  Lemma sf_enc_loop_end f AES hctx s : of_ahead s = [] -> (length (of_disk s) <= of_pos s)%nat ->
    sf_enc_loop chunk flush M (S f) AES hctx s = Ok (AES, hctx, mk_one (of_disk s) (of_pos s) [] (of_pend s)).
  Proof.
    intros H1 H2. cbn [sf_enc_loop]. rewrite of_fread_eof by exact H2. rewrite bind_Ok. rewrite H1, firstn_nil, skipn_nil. reflexivity.
  Qed.

  (** Encrypting a file onto itself, with a header that fits into the output
      stream's buffer, encrypts nothing: the file is empty when it is read. *)
  Lemma same_enc_eq lb hp e D passwd P verbose force :
    size_bits (m_szb M) -> xp_ok P -> bytes_ok passwd -> env_bytes (v_ent e) -> drbg_inv (lb_drbg lb) -> flush 96%nat = 0%nat ->
    same_file_enc chunk flush M cfg lb hp e D passwd P verbose force =
    (o <- scryptenc_file M cfg lb hp e (mk_in [] false) (mk_out [] [] false) passwd P verbose force ;;
     Ok (with_val o (o_data (snd (oc_val o))))).
  Proof.
    intros Hs HXP HPW HE HD HF. unfold same_file_enc, sf_scryptenc_file, scryptenc_file, with_val.
    destruct (assert_ (all_zero P || none_zero P)) as [u| |]; [|reflexivity|reflexivity]. rewrite !bind_Ok.
    destruct (scryptenc_setup M cfg lb e P (scratch_bytes (jk M) 96) (scratch_bytes (jk M) 64) passwd verbose force)
      as [[[[[[lb1 ms] P1] hd] dk] rc]| |] eqn:ES; [|reflexivity|reflexivity]. rewrite !bind_Ok. cbv beta iota.
    eapply scryptenc_setup_inv in ES; auto using scratch_bytes_ok, scratch_bytes_length.
    destruct ES as (_ & LD & _ & _ & _ & HOK).
    destruct (is_ok rc) eqn:EO; cbn [negb].
    2:{ rewrite zero_dk_ok by exact LD. reflexivity. }
    apply is_ok_spec in EO. subst rc. destruct (HOK eq_refl) as (h & d & Hh & _ & _ & _ & EDK & EHD). clear HOK.
    assert (length hd = 96%nat) as L96 by (rewrite EHD; apply fmt_96_length; apply Hh). clear EDK EHD Hh h d.
    rewrite rd_ok by lia. rewrite !bind_Ok.
    destruct (HMAC_SHA256_Init (shw M) (jk M) (hmac_junk (jk M)) (sub dk 32 32)) as [c1| |]; [|reflexivity|reflexivity]. rewrite !bind_Ok.
    destruct (HMAC_SHA256_Update (shw M) (jk M) c1 hd) as [c2| |]; [|reflexivity|reflexivity]. rewrite !bind_Ok.
    assert (of_fwrite flush hd (open_wb (open_rb D)) = mk_one [] 0 [] hd) as ->.
    { unfold of_fwrite, open_wb, open_rb. cbn [of_disk of_pend of_pos of_ahead app length]. rewrite L96, HF. reflexivity. }
    unfold fwrite at 1. cbn [o_plan o_data o_err app negb].
    destruct (start_aes M e hp dk) as [[h1 a]| |]; [|reflexivity|reflexivity]. rewrite !bind_Ok. cbv beta iota.
    destruct a as [rc|[[ki si] AES]].
    { rewrite zero_dk_ok by exact LD. reflexivity. }
    rewrite enc_loop_end. unfold of_size. cbn [of_ahead]. rewrite sf_enc_loop_end by (cbn [of_ahead of_disk of_pos length]; auto).
    rewrite !bind_Ok. cbv beta iota. cbn [of_disk of_pos of_pend negb].
    destruct (kh_set si (Some (S_stream AES)) h1) as [h2| |]; [|reflexivity|reflexivity]. rewrite !bind_Ok.
    destruct (crypto_aesctr_free si h2) as [h3| |]; [|reflexivity|reflexivity]. rewrite !bind_Ok.
    destruct (crypto_aes_key_free ki h3) as [h4| |]; [|reflexivity|reflexivity]. rewrite !bind_Ok. cbn [ferror i_err].
    destruct (HMAC_SHA256_Final (shw M) (jk M) c2) as [[tag c3]| |]; [|reflexivity|reflexivity]. rewrite !bind_Ok. cbv beta iota.
    unfold fwrite. cbn [o_plan o_data o_err]. rewrite zero_dk_ok by exact LD. rewrite !bind_Ok. cbn [oc_rc oc_lib oc_msgs oc_P oc_dk oc_heap oc_val snd o_data].
    unfold close_both. rewrite of_fwrite_all. cbn [of_disk of_pend app]. reflexivity.
  Qed.

  Lemma fi_of_ok a : bytes_ok a -> input_ok (fi_of a).
  Proof. intros H. unfold input_ok, fi_of. destruct a; cbn [i_pieces]; [constructor|]. constructor; [exact H|constructor]. Qed.
  Lemma fi_of_data a : stream_data (fi_of a) = a.
  Proof. unfold stream_data, fi_of. destruct a as [|x a]; cbn [i_pieces pieces_data]; [reflexivity|]. apply app_nil_r. Qed.
  Lemma fi_of_no_errors a : no_errors (fi_of a) = fi_of a.
  Proof. unfold no_errors, fi_of. destruct a; reflexivity. Qed.

  (** The status of the preparation depends on the header only. *)
  Lemma prep_only_header lb hp e f1 f2 passwd P verbose force C0 rc hd g1 g2 :
    load_header f1 = (rc, hd, g1) -> load_header f2 = (rc, hd, g2) ->
    forall (X : rcode -> res (outcome bytes)),
    (p <- scryptdec_file_prep M cfg lb hp e f1 passwd P verbose force C0 ;; X (oc_rc p)) =
    (p <- scryptdec_file_prep M cfg lb hp e f2 passwd P verbose force C0 ;; X (oc_rc p)).
  Proof.
    intros E1 E2 X. unfold scryptdec_file_prep.
    destruct (assert_ (all_zero P)) as [u| |]; [|reflexivity|reflexivity]. rewrite !bind_Ok.
    destruct (negb (v_cookie_mem e)); [reflexivity|].
    destruct (kh_alloc (S_cookie (scratch_bytes (jk M) 64)) hp) as [ci h0]. rewrite E1, E2.
    destruct (negb (is_ok rc)). { destruct (zero_free ci h0); reflexivity. }
    destruct (scryptdec_setup M cfg lb e P hd (scratch_bytes (jk M) 64) passwd verbose force) as [[[[[lb1 ms] P1] dk] rc1]| |]; [|reflexivity|reflexivity].
    rewrite !bind_Ok. cbv beta iota. destruct (kh_set ci (Some (S_cookie dk)) h0); [|reflexivity|reflexivity]. rewrite !bind_Ok.
    destruct (negb (is_ok rc1)); [|reflexivity]. match goal with |- context [zero_free ci ?h] => destruct (zero_free ci h) end; reflexivity.
  Qed.

  (** Decrypting a file onto itself decrypts what the input stream had read by the
      time it had the header. *)
  Lemma same_dec_eq D : bytes_ok D -> N.of_nat (length D) < 2 ^ 64 ->
    exists k, (k <= length D)%nat /\ (Nat.min (Nat.max 1 (chunk 0)) (length D) <= k)%nat /\
      (forall B, (1 <= B)%nat -> (forall i, chunk i <= B)%nat -> (k < 96 + B)%nat) /\
      (exists rc hd g1 g2, load_header (fi_of D) = (rc, hd, g1) /\ load_header (fi_of (firstn k D)) = (rc, hd, g2)) /\
      forall lb hp e passwd P verbose force, size_bits (m_szb M) -> bytes_ok passwd -> heap_ok hp ->
      same_file_dec chunk flush M cfg lb hp e D passwd P verbose force =
      (p <- scryptdec_file_prep M cfg lb hp e (fi_of D) passwd P verbose force None ;;
       o <- scryptdec_file M cfg lb hp e (fi_of (firstn k D)) (mk_out [] [] false) passwd P verbose force ;;
       Ok (with_val o (if is_ok (oc_rc p) then o_data (snd (oc_val o)) else D))).
  Proof.
    intros HOD HLD. destruct (sf_header_ok chunk D) as (rc & hd & s & l & EH & HR & EL & H96 & gD & ELD).
    exists (of_pos s).
    assert (reading D 0 (open_rb D)) as H0 by (unfold reading, open_rb; cbn [of_disk of_pend of_ahead of_pos length]; repeat split; auto; lia).
    split; [apply HR|]. split; [|split; [|split]].
    - eapply sf_header_least. exact EH.
    - intros B HB HC. eapply sf_header_most; eauto.
    - exists rc, hd, gD. eexists. split; eassumption.
    - intros lb hp e passwd P verbose force Hs HPW HH.
      rewrite (prep_only_header lb hp e (fi_of D) (fi_of (firstn (of_pos s) D)) passwd P verbose force None _ _ _ _ ELD EL
        (fun rc => o <- scryptdec_file M cfg lb hp e (fi_of (firstn (of_pos s) D)) (mk_out [] [] false) passwd P verbose force ;;
           Ok (with_val o (if is_ok rc then o_data (snd (oc_val o)) else D)))). cbv beta. clear gD ELD.
      set (g := fi_of (firstn (of_pos s) D)) in *.
      unfold same_file_dec, scryptdec_file.
      assert (of_disk s = D) as HDK by apply HR.
      (* preparation *)
      unfold sf_scryptdec_file_prep, scryptdec_file_prep.
      destruct (assert_ (all_zero P)) as [u| |]; [|reflexivity|reflexivity]. rewrite !bind_Ok.
      destruct (negb (v_cookie_mem e)) eqn:EC.
      { rewrite !bind_Ok. unfold with_val. cbn [oc_rc oc_lib oc_msgs oc_P oc_dk oc_heap oc_val is_ok rcode_eqb negb]. rewrite !bind_Ok. reflexivity. }
      destruct (kh_alloc (S_cookie (scratch_bytes (jk M) 64)) hp) as [ci h0] eqn:EKA. rewrite EH, EL, !bind_Ok. cbv beta iota.
      destruct (is_ok rc) eqn:ER; cbn [negb].
      2:{ destruct (zero_free ci h0) as [h1| |]; [|reflexivity|reflexivity]. rewrite !bind_Ok. unfold with_val. cbn [oc_rc oc_lib oc_msgs oc_P oc_dk oc_heap oc_val].
          rewrite ER. cbn [negb]. rewrite HDK. reflexivity. }
      apply is_ok_spec in ER. subst rc. specialize (H96 eq_refl). subst l.
      destruct (scryptdec_setup M cfg lb e P hd (scratch_bytes (jk M) 64) passwd verbose force) as [[[[[lb1 ms] P1] dk] rc]| |] eqn:ES; [|reflexivity|reflexivity].
      rewrite !bind_Ok. cbv beta iota.
      assert (hd = firstn 96 D) as EHD.
      { unfold sf_load_header in EH. destruct (of_fread_ok chunk D 7 0 _ H0) as (s1 & E1 & R1 & _). rewrite E1, bind_Ok in EH. cbv beta iota in EH.
        cbn [skipn] in EH, R1. destruct (Nat.ltb_spec (length (firstn 7 D)) 7) as [K|K]; [discriminate|].
        rewrite firstn_length in K. rewrite firstn_length, Nat.min_l in R1 by lia. cbn [Nat.add] in R1.
        destruct (negb _); [discriminate|]. destruct (negb _); [discriminate|].
        destruct (of_fread_ok chunk D 89 7 _ R1) as (s2 & E2 & R2 & _). rewrite E2, bind_Ok in EH. cbv beta iota in EH.
        destruct (Nat.ltb (length (firstn 89 (skipn 7 D))) 89); [discriminate|]. injection EH as <- _. apply (firstn_two 7 96). lia. }
      destruct (kh_set ci (Some (S_cookie dk)) h0) as [h1| |] eqn:EKS; [|reflexivity|reflexivity]. rewrite !bind_Ok.
      destruct (is_ok rc) eqn:ER2; cbn [negb].
      2:{ destruct (zero_free ci h1) as [h2| |]; [|reflexivity|reflexivity]. rewrite !bind_Ok. unfold with_val. cbn [oc_rc oc_lib oc_msgs oc_P oc_dk oc_heap oc_val].
          rewrite ER2. cbn [negb]. rewrite HDK. reflexivity. }
      rewrite !bind_Ok. cbn [oc_rc oc_lib oc_msgs oc_P oc_dk oc_heap oc_val is_ok rcode_eqb negb].
      (* the copy *)
      assert (96 <= length D)%nat as HLN by (destruct HR as (_ & _ & R3 & R4 & _); lia).
      assert (bytes_ok hd) as OHD by (rewrite EHD; apply bytes_ok_firstn, HOD).
      apply scryptdec_setup_inv in ES; auto using scratch_bytes_ok, scratch_bytes_length;
        [|rewrite EHD, firstn_length; lia]. destruct ES as (_ & LDK & _ & HSR).
      apply is_ok_spec in ER2. subst rc.
      assert (dk = fmt_keys scrypt_wrapping passwd (get_head hd)) as EDK by (inversion HSR; auto; congruence).
      assert (bytes_ok dk) as ODK by (rewrite EDK; apply keys_ok).
      unfold sf_scryptdec_file_copy, scryptdec_file_copy. cbn [ck_dk ck_header ck_addr].
      rewrite rd_ok by lia. rewrite !bind_Ok.
      destruct (HMAC_SHA256_Init (shw M) (jk M) (hmac_junk (jk M)) (sub dk 32 32)) as [c1| |] eqn:EI; [|reflexivity|reflexivity]. rewrite !bind_Ok.
      destruct (HMAC_SHA256_Update (shw M) (jk M) c1 hd) as [c2| |] eqn:EU; [|reflexivity|reflexivity]. rewrite !bind_Ok.
      assert (exists K m, hmac_inv c2 K m) as (K & m & HI2).
      { assert (bytes_ok (sub dk 32 32)) as OK by (apply bytes_ok_sub, ODK).
        destruct (hmac_junk_init (shw M) (jk M) (sub dk 32 32) OK) as (c & EI' & HC). rewrite EI in EI'. injection EI' as <-.
        destruct (HMAC_Update_correct (shw M) (jk M) c1 _ [] hd HC OHD) as (c' & EU' & HC'). rewrite EU in EU'. injection EU' as <-. eauto. }
      assert (heap_ok h1) as HH1.
      { unfold kh_alloc in EKA. injection EKA as <- <-.
        pose proof (heap_fresh hp (kh_next hp) HH ltac:(lia)) as F0. rewrite kh_set_head in EKS by exact F0. injection EKS as <-.
        unfold heap_ok. cbn [kh_live kh_next]. constructor; [cbn; lia|]. eapply Forall_impl; [|exact HH]. cbv beta. intros; lia. }
      assert (bytes_ok (of_ahead s)) as OAH.
      { destruct HR as (_ & _ & _ & _ & R5). rewrite R5. apply bytes_ok_sub, HOD. }
      assert (length (of_ahead s) <= length D)%nat as LAH by (destruct HR as (_ & _ & R3 & R4 & _); lia).
      destruct (start_aes_cases M e h1 dk LDK ODK HH1) as [(K1 & ->)|[(K1 & K2 & ->)|(K1 & K2 & key & AES & -> & HK & HS)]];
        rewrite !bind_Ok; cbv beta iota.
      1,2: destruct (scryptdec_file_cookie_free (Some (mk_cookie ci hd dk)) _) as [h3| |]; [|reflexivity|reflexivity].
      1,2: rewrite !bind_Ok; unfold with_val, close_both, open_wb; cbn [oc_rc oc_lib oc_msgs oc_P oc_dk oc_heap oc_val snd o_data of_disk of_pend app]; reflexivity.
      assert (length (firstn 32 dk) = 32%nat) as LK by (rewrite firstn_length; lia).
      rewrite (in_size_fi (of_ahead s) [] [] (of_pos s)). change (mk_one [] (of_pos s) (of_ahead s) []) with (open_wb s).
      destruct (dec_loop_ok M K (firstn 32 dk) (of_size (open_wb s)) AES c2 [] (fi_of (of_ahead s)) (mk_out [] [] false) m 0
        (bytes_ok_firstn _ _ ODK) (or_intror LK) HS HI2 (fi_of_ok _ OAH) (Forall_nil _) (Nat.le_0_l _))
        as (eof & AES' & c3 & buf & fi' & fo' & ct & hold & w & EDL & _).
      { rewrite fi_of_no_errors, fi_of_data. cbn [length]. lia. }
      { rewrite (in_size_fi (of_ahead s) [] [] (of_pos s)). apply le_n. }
      rewrite EDL, bind_Ok. cbv beta iota.
      eapply (sf_dec_loop_ok chunk flush M (firstn 32 dk) _ _ _ [] (open_wb s)) in EDL; eauto; try reflexivity;
        [|cbn [open_wb of_ahead length]; lia|cbn [length]; lia
         |cbn [open_wb of_ahead of_disk of_pend of_pos length]; destruct HR as (_ & _ & R3 & R4 & _); lia].
      destruct EDL as (s2 & ESL & -> & HE & HDATA). rewrite ESL, bind_Ok. cbv beta iota. cbn [negb].
      destruct (kh_set (S (kh_next h1)) _ _) as [h2| |]; [|reflexivity|reflexivity]. rewrite !bind_Ok.
      destruct (crypto_aesctr_free (S (kh_next h1)) h2) as [h3| |]; [|reflexivity|reflexivity]. rewrite !bind_Ok.
      destruct (crypto_aes_key_free (kh_next h1) h3) as [h4| |]; [|reflexivity|reflexivity]. rewrite !bind_Ok.
      unfold ferror. rewrite HE.
      destruct (Nat.ltb (length buf) 32).
      { rewrite !bind_Ok. destruct (scryptdec_file_cookie_free _ h4) as [h5| |]; [|reflexivity|reflexivity]. rewrite !bind_Ok.
        unfold with_val, close_both. cbn [oc_rc oc_lib oc_msgs oc_P oc_dk oc_heap oc_val snd]. rewrite HDATA. reflexivity. }
      destruct (HMAC_SHA256_Final (shw M) (jk M) c3) as [[tag c4]| |]; [|reflexivity|reflexivity]. rewrite !bind_Ok. cbv beta iota.
      destruct (crypto_verify_bytes tag buf 32) as [v| |]; [|reflexivity|reflexivity]. rewrite !bind_Ok. cbv beta iota.
      destruct (scryptdec_file_cookie_free _ h4) as [h5| |]; [|reflexivity|reflexivity]. rewrite !bind_Ok.
      unfold with_val, close_both. cbn [oc_rc oc_lib oc_msgs oc_P oc_dk oc_heap oc_val snd]. rewrite HDATA. reflexivity.
  Qed.
End Files.
