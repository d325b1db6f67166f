(** C53: the passphrase is erased before the program ends. *)
From Coq Require Import String.
From Verif Require Import Base SpecAscii SpecBytes SpecSHA SpecScrypt SpecScryptAPI SpecAES SpecFormat SpecStream P_scrypt M_machine M_double M_smix M_stdio P_stdio M_memlimit M_cpuperf
  M_strto M_params Prop_params M_scryptenc SpecScryptenc M_getopt M_readpass M_print_error M_main M_memzero P_memzero SpecPass SpecGetopt SpecCLI P_scrypt_ref P_scryptenc P_scryptenc2 P_scryptenc3 P_scryptenc4
  P_scryptenc7 P_scryptenc8 P_scryptenc9 P_entropy M_entropy P_readpass Prop_getopt Prop_readpass Prop_enc Prop_dec Prop_io Prop_cli P_main Prop_main.
Local Open Scope list_scope.

Definition obtains (e : pevent) : Prop := exists acts, e = E_pass acts true.
Definition releases (e : pevent) : Prop := exists z, e = E_pass_free z.
Definition uses (e : pevent) : Prop := exists rc, e = E_prep rc \/ e = E_run rc.
(** Nothing obtained and nothing released among these events. *)
Definition no_pass (evs : list pevent) : Prop := Forall (fun e => ~ obtains e /\ ~ releases e) evs.
(** The events of a run that obtained the passphrase [passwd]: afterwards, at one
    point, the object holding it (the string and its terminator) is given back
    to the allocator, containing zeros only, and it is not used any more. *)
Definition erased (passwd : bytes) (evs : list pevent) : Prop :=
  exists a acts b c, evs = a ++ E_pass acts true :: b ++ E_pass_free (repeat 0 (S (List.length passwd))) :: c /\
    no_pass a /\ no_pass b /\ no_pass c /\ Forall (fun e => ~ uses e) a /\ Forall (fun e => ~ uses e) c.

Definition idle (e : pevent) : Prop := match e with E_pass _ true | E_pass_free _ | E_prep _ | E_run _ => False | _ => True end.
Lemma idle_spec evs : Forall idle evs -> no_pass evs /\ Forall (fun e => ~ uses e) evs.
Proof.
  intros H. unfold no_pass. rewrite !Forall_forall. rewrite Forall_forall in H. split; intros e He; specialize (H e He).
  - split; intros (x & ->); exact H.
  - intros (rc & [-> | ->]); exact H.
Qed.
Lemma no_pass_app a b : no_pass a -> no_pass b -> no_pass (a ++ b).
Proof. intros. apply Forall_app. auto. Qed.
Lemma no_pass_idle a : Forall idle a -> no_pass a.
Proof. apply idle_spec. Qed.
Lemma no_pass_use e t : match e with E_prep _ | E_run _ => True | _ => False end -> no_pass t -> no_pass (e :: t).
Proof. intros He Ht. constructor; [|exact Ht]. split; intros (x & ->); exact He. Qed.
Lemma idle_close_in W i : Forall idle (close_in W i).
Proof. unfold close_in, warn_close. destruct i; [destruct (w_close_in W)|]; repeat constructor. Qed.
Lemma idle_close_out W i : Forall idle (close_out W i).
Proof. unfold close_out, warn_close. destruct i; [destruct (w_close_out W)|]; repeat constructor. Qed.
Lemma idle_error rc i o pe : print_error rc i o = Ok pe -> Forall idle pe.
Proof. unfold print_error. intros H. apply bind_inv in H. destruct H as (x & _ & H). apply Ok_inj in H. subst pe. repeat constructor. Qed.
Lemma erased_intro passwd a acts b c : Forall idle a -> no_pass b -> Forall idle c ->
  erased passwd (a ++ E_pass acts true :: b ++ E_pass_free (repeat 0 (S (List.length passwd))) :: c).
Proof.
  intros Ha Hb Hc. apply idle_spec in Ha, Hc. exists a, acts, b, c. intuition.
Qed.
Ltac idl := repeat first [assumption | apply idle_close_in | apply idle_close_out | apply Forall_nil | (apply Forall_app; split) | (apply Forall_cons; [exact I|])].

(** What follows the header when the output is processed. *)
Lemma run_tail W dec P lb h C passwd fi verbose force i o r : enc_dec_run W dec P lb h C passwd fi verbose force i o = Ok r ->
  exists b c, pr_events r = b ++ E_pass_free (repeat 0 (S (List.length passwd))) :: c /\ no_pass b /\ Forall idle c.
Proof.
  intros E. unfold enc_dec_run in E. destruct (match o with None => Some (w_stdout W) | Some n => w_open_out W n end) as [fo|].
  - apply bind_inv in E. destruct E as ([[[rc ms] fo2] h2] & _ & E). apply bind_inv in E. destruct E as (h3 & _ & E).
    rewrite release_pass_ok, bind_Ok in E. apply bind_inv in E. destruct E as (pe & EPE & E).
    assert (Forall idle pe) as HPE by (destruct (is_ok rc); [apply Ok_inj in EPE; subst pe; constructor|exact (idle_error _ _ _ _ EPE)]).
    exists (match o with None => [] | Some n => [E_open_out n true] end ++ [E_msgs ms; E_run rc]), (close_in W i ++ close_out W o ++ pe).
    split; [destruct o; apply Ok_inj in E; subst r; cbn [pr_events]; rewrite <- ?app_assoc; reflexivity|].
    split; [|idl]. apply no_pass_app; [apply no_pass_idle; destruct o; idl|].
    constructor; [split; intros (x & H); discriminate H|]. apply no_pass_use; [exact I|constructor].
  - apply bind_inv in E. destruct E as (h3 & _ & E). rewrite release_pass_ok, bind_Ok in E. apply Ok_inj in E. subst r.
    exists [E_open_out (or_name o []) false; E_warn (str "Cannot open output file: " ++ or_name o [])], (close_in W i).
    split; [reflexivity|]. split; [apply no_pass_idle; idl|idl].
Qed.
Lemma enc_dec_erased W s dec i o r :
  scrypt_mode_enc_dec W (params_of s) (fst (method_of s)) (snd (method_of s)) dec (s_verbose s) (s_force s) i o = Ok r ->
  no_pass (pr_events r) \/ exists passwd fi, reads W s dec i passwd fi /\ erased passwd (pr_events r).
Proof.
  unfold scrypt_mode_enc_dec. fold (input_stream W i). destruct (input_stream W i) as [fi0|] eqn:EI.
  2:{ intros H. apply Ok_inj in H. subst r. left. apply no_pass_idle. cbn [fail pr_events]. idl. }
  intros H. apply bind_inv in H. destruct H as (rp & ER & H). fold (ask W s dec) in ER.
  set (oi := match i with None => [] | Some n => [E_open_in n true] end) in H.
  assert (Forall idle oi) as HOI by (unfold oi; destruct i; repeat constructor). clearbody oi.
  destruct (ro_pass rp) as [passwd|] eqn:EP.
  2:{ apply Ok_inj in H. subst r. left. apply no_pass_idle. cbn [fail pr_events]. idl. }
  set (fi := match i with None => ro_stdin rp | Some _ => fi0 end) in H.
  assert (reads W s dec i passwd fi) as HR by (econstructor; eauto; reflexivity). clearbody fi.
  right. exists passwd, fi. split; [exact HR|]. destruct dec.
  - apply bind_inv in H. destruct H as (oc & EC & H). destruct (is_ok (oc_rc oc)) eqn:EO; cbn [negb] in H.
    + apply bind_inv in H. destruct H as (r1 & E1 & H). apply Ok_inj in H. subst r.
      destruct (run_tail _ _ _ _ _ _ _ _ _ _ _ _ _ E1) as (b & c & EV & HB & HC). unfold add_events. cbn [pr_events]. rewrite EV.
      rewrite <- !app_assoc. cbn [app].
      apply (erased_intro passwd oi (ro_acts rp) (E_msgs (oc_msgs oc) :: E_prep (oc_rc oc) :: b) c); auto.
      constructor; [split; intros (x & H); discriminate H|]. apply no_pass_use; [exact I|exact HB].
    + apply bind_inv in H. destruct H as (h & EF & H). rewrite release_pass_ok, bind_Ok in H. apply bind_inv in H. destruct H as (pe & EPE & H). apply Ok_inj in H. subst r.
      cbn [fail pr_events]. rewrite <- !app_assoc. cbn [app]. pose proof (idle_error _ _ _ _ EPE) as HPE.
      apply (erased_intro passwd oi (ro_acts rp) [E_msgs (oc_msgs oc); E_prep (oc_rc oc)] (close_in W i ++ pe)); [exact HOI| |idl].
      constructor; [split; intros (x & H); discriminate H|]. apply no_pass_use; [exact I|constructor].
  - apply bind_inv in H. destruct H as (r1 & E1 & H). apply Ok_inj in H. subst r.
    destruct (run_tail _ _ _ _ _ _ _ _ _ _ _ _ _ E1) as (b & c & EV & HB & HC). unfold add_events. cbn [pr_events]. rewrite EV.
    rewrite <- !app_assoc. cbn [app]. apply (erased_intro passwd oi (ro_acts rp) b c); auto.
Qed.

(** Every run of the program that ends, however it ends: either no passphrase
    was obtained, or the one obtained (the one the passphrase option asks for)
    is overwritten with zeros and freed, once, after its last use. *)
Theorem C53_erased : forall W prog m rest r, Forall cstring rest -> main W (prog :: mode_word m :: rest) = Ok r ->
  no_pass (pr_events r) \/
  exists s i o passwd fi, m <> Info /\ requested W m rest s i o /\ reads W s (match m with Dec => true | _ => false end) i passwd fi /\
    erased passwd (pr_events r).
Proof.
  intros W prog m rest r HC E. destruct (mode_cases W prog m rest r HC E) as [(evs & H & _ & HM)|(s & i & o & HQ & HO)].
  - apply Ok_inj in H. subst r. left. cbn [pr_events]. unfold no_pass. rewrite !Forall_forall. rewrite Forall_forall in HM.
    intros e He. specialize (HM e He). split; intros (x & ->); exact HM.
  - destruct m; cbn [operation] in HO.
    + destruct (enc_dec_erased W s false i o r HO) as [H|(passwd & fi & H1 & H2)]; [left; exact H|right].
      exists s, i, o, passwd, fi. split; [discriminate|]. auto.
    + destruct (enc_dec_erased W s true i o r HO) as [H|(passwd & fi & H1 & H2)]; [left; exact H|right].
      exists s, i, o, passwd, fi. split; [discriminate|]. auto.
    + left. unfold scrypt_mode_info in HO. destruct (match i with None => Some (w_stdin W) | Some n => w_open_in W n end) as [fi|].
      * apply bind_inv in HO. destruct HO as ([[rc ms] fi2] & _ & HO).
        assert (no_pass (match i with None => [] | Some n => [E_open_in n true] end ++ [E_msgs ms; E_run rc])) as HN.
        { apply no_pass_app; [apply no_pass_idle; destruct i; idl|]. constructor; [split; intros (x & H); discriminate H|]. apply no_pass_use; [exact I|constructor]. }
        destruct (is_ok rc); cbn [negb] in HO.
        -- apply Ok_inj in HO. subst r. cbn [pr_events]. rewrite app_assoc. apply no_pass_app; [exact HN|apply no_pass_idle, idle_close_in].
        -- apply bind_inv in HO. destruct HO as (pe & EPE & HO). apply Ok_inj in HO. subst r. cbn [fail pr_events]. rewrite app_assoc.
           apply no_pass_app; [exact HN|]. apply no_pass_idle, Forall_app. split; [exact (idle_error _ _ _ _ EPE)|apply idle_close_in].
      * apply Ok_inj in HO. subst r. apply no_pass_idle. cbn [fail pr_events]. idl.
Qed.
(** ** Derived keys at the level of the program *)
(** Every run that ends has wiped and freed every object that held key
    material, unless writing the output failed. *)
Theorem C43_program : forall W prog m rest r, sane W -> Forall cstring rest -> main W (prog :: mode_word m :: rest) = Ok r ->
  heap_clean (w_heap W) (pr_heap r) \/
  (In (E_run SCRYPT_EWRFILE) (pr_events r) /\ exists passwd h, heap_leak1 (w_M W) (key_enc scrypt_wrapping passwd h) (w_heap W) (pr_heap r)).
Proof.
  intros W prog m rest r HW HC E. pose proof (heap_clean_refl _ (sn_heap W HW)) as HR0.
  destruct (mode_cases W prog m rest r HC E) as [(evs & H & _)|(s & i & o & HQ & HO)].
  { apply Ok_inj in H. subst r. left. exact HR0. }
  assert (forall dec, (dec = false -> m = Enc) -> scrypt_mode_enc_dec W (params_of s) (fst (method_of s)) (snd (method_of s)) dec (s_verbose s) (s_force s) i o = Ok r ->
    heap_clean (w_heap W) (pr_heap r) \/
    (In (E_run SCRYPT_EWRFILE) (pr_events r) /\ exists passwd h, heap_leak1 (w_M W) (key_enc scrypt_wrapping passwd h) (w_heap W) (pr_heap r))) as HED.
  { intros dec HM H. apply enc_dec_course in H.
    destruct H as [A1 A2 A3 A4 A5|passwd fi oc a b h A1 A2 A3 A4 A5 A6 A7 A8 A9 A10 A11 A12|passwd fi a b A1 A2 A3 A4 A5 A6 A7|passwd fi oc a b h A1 A2 A3 A4 A5 A6 A7 A8 A9 A10 A11 A12 A13
      |passwd fi fo oc a b A1 A2 A3 A4 A5 A6 A7 A8 A9 A10|passwd fi fo oc rc fi2 fo2 h2 h3 a b A1 A2 A3 A4 A5 A6 A7 A8 A9 A10 A11 A12 A13 A14].
    - left. rewrite A4. exact HR0.
    - left. destruct (sane_ready W s true i passwd fi HW A2) as [R RI]. destruct (C50_failed_prep _ _ _ _ _ _ _ _ _ _ _ _ R RI A3) as [HF _].
      destruct (HF A4) as [F1 F2]. rewrite F1 in A5. cbn [scryptdec_file_cookie_free] in A5. apply Ok_inj in A5. subst h. rewrite A9. exact F2.
    - left. rewrite A7. exact HR0.
    - left. subst dec. destruct (sane_ready W s true i passwd fi HW A2) as [[R1 R2 R3] [R4 R5]]. rewrite A10. clear A10 HR0.
      apply prep_inv in A4; auto. destruct A4 as (_ & _ & HPR). rewrite A5 in HPR. revert HPR A6.
      generalize (oc_msgs oc) (oc_P oc) (fst (oc_val oc)) (snd (oc_val oc)) (oc_heap oc). intros ms P' C fi' hp HPR EF.
      inversion HPR as [|rc0 hd fi2 hp' B1 B2 B3 B4|rc0 fi2 ms0 lb' dk hp' B1 B2 B3 B4 B5|fi2 ms0 lb' hp' B1 B2 B3 B4]; subst; try congruence.
      cbn [scryptdec_file_cookie_free ck_addr] in EF. rewrite zero_free_head in EF by (apply heap_fresh; [exact R3|lia]). apply Ok_inj in EF. subst h.
      apply (heap_clean_mk (w_heap W) _ 1); [exact R3|cbn; lia].
    - subst dec. destruct (sane_ready W s false i passwd fi HW A2) as [R RI].
      assert (enc_ready (w_M W) (w_lb W) (w_heap W) (w_env W) passwd (params_of s)) as HER.
      { specialize (HM eq_refl). subst m. split; [exact R|exact (requested_xp W Enc rest s i o HQ)|exact (sn_ent W HW)|exact (sn_drbg W HW)]. }
      destruct (C43_stream_encrypt _ _ _ _ _ _ _ _ _ _ _ _ HER RI A4) as (_ & G1 & G2). rewrite A7.
      destruct (rcode_eqb (oc_rc oc) SCRYPT_EWRFILE) eqn:EW.
      2:{ left. apply G1. intros EE. rewrite EE in EW. discriminate EW. }
      assert (oc_rc oc = SCRYPT_EWRFILE) as EE by (destruct (oc_rc oc); try discriminate EW; reflexivity).
      destruct (G2 EE) as [HCL|(h & HLK)]; [left; exact HCL|right]. split.
      { rewrite A8, EE. apply in_or_app. right. apply in_or_app. right. right. left. reflexivity. }
      exists passwd, h. destruct HLK as (L1 & (k & L2 & L3) & L4). split; [exact L1|]. split; [exists (kh_next (w_heap W)), k; auto|exact L4].
    - subst dec. destruct (sane_ready W s true i passwd fi HW A2) as [R RI].
      destruct (C50_one_call _ _ _ _ _ _ fo _ _ _ _ oc (fst (oc_val oc)) (snd (oc_val oc)) rc fi2 fo2 h2 h3 A4 A5 (surjective_pairing _) A6 A7) as (oo & EOO & B1 & _ & B3 & _).
      destruct (C43_stream_decrypt _ _ _ _ _ _ _ _ _ _ _ _ R RI EOO) as (G1 & G2). rewrite A10, <- B3.
      destruct (rcode_eqb rc SCRYPT_EWRFILE) eqn:EW.
      2:{ left. apply G1. rewrite B1. intros EE. rewrite EE in EW. discriminate EW. }
      assert (rc = SCRYPT_EWRFILE) as EE by (destruct rc; try discriminate EW; reflexivity). right. split.
      { rewrite A11, EE. apply in_or_app. right. right. apply in_or_app. right. right. left. reflexivity. }
      exists passwd. apply G2. rewrite B1. exact EE. }
  destruct m; cbn [operation] in HO.
  - apply (HED false (fun _ => eq_refl) HO).
  - apply (HED true ltac:(discriminate) HO).
  - left. unfold scrypt_mode_info in HO. destruct (match i with None => Some (w_stdin W) | Some n => w_open_in W n end) as [fi|].
    + apply bind_inv in HO. destruct HO as ([[rc ms] fi2] & _ & HO). destruct (is_ok rc); cbn [negb] in HO.
      * apply Ok_inj in HO. subst r. exact HR0.
      * apply bind_inv in HO. destruct HO as (pe & EPE & HO). apply Ok_inj in HO. subst r. exact HR0.
    + apply Ok_inj in HO. subst r. exact HR0.
Qed.
(** insecure_memzero itself: exactly the first len bytes of the object become
    zero; more than the object holds is out of bounds. *)
Theorem C53_memzero buf len : (len <= List.length buf)%nat ->
  exists buf', insecure_memzero buf len = Ok buf' /\ List.length buf' = List.length buf /\
    (forall i, (i < len)%nat -> nth i buf' 1 = 0) /\ (forall i, (len <= i)%nat -> nth i buf' 0 = nth i buf 0).
Proof.
  intros H. exists (repeat 0 len ++ skipn len buf). split; [apply insecure_memzero_ok, H|].
  split; [rewrite app_length, repeat_length, skipn_length; lia|]. split.
  - intros i Hi. rewrite app_nth1 by (rewrite repeat_length; lia). apply (repeat_spec len 0). apply nth_In. rewrite repeat_length. lia.
  - intros i Hi. rewrite app_nth2 by (rewrite repeat_length; lia). rewrite repeat_length. rewrite <- (firstn_skipn len buf) at 2.
    rewrite app_nth2 by (rewrite firstn_length; lia). f_equal. rewrite firstn_length. lia.
Qed.
(** A run that reads the passphrase from the environment and then finds that the
    input is not a scrypt file; and one that cannot open the output file. *)
Definition small_world (content : bytes) (out : option outstream) : world :=
  mk_world ex_machine ex_cfg ex_lib ex_heap ex_call ex_pp (mk_in [] false) (mk_out [] [] false)
    (fun n => Some (mk_in [(content, false)] false)) (fun _ => out) true true (fun _ => (d0, 0%nat, None)) 0 true true.
Example C53_hyps : exists r, main (small_world [1; 2; 3] None) (map str ["scrypt"; "dec"; "--passphrase"; "env:PW"; "-f"; "a"; "b"]%string) = Ok r /\ erased ex_passwd (pr_events r).
Proof.
  eexists. split; [vm_compute; reflexivity|]. cbn [pr_events].
  eexists [_], _, [_; _], [_; _]. split; [vm_compute; reflexivity|].
  repeat split; repeat (apply Forall_cons || apply Forall_nil); try split; try (intros (x & H); discriminate H); intros (rc & [H|H]); discriminate H.
Qed.
Example C53_hyps_no_output : exists r, main (small_world [] None) (map str ["scrypt"; "enc"; "--passphrase"; "env:PW"; "-f"; "a"; "b"]%string) = Ok r /\ erased ex_passwd (pr_events r).
Proof.
  eexists. split; [vm_compute; reflexivity|]. cbn [pr_events].
  eexists [_], _, [_; _], [_]. split; [vm_compute; reflexivity|].
  repeat split; repeat (apply Forall_cons || apply Forall_nil); try split; try (intros (x & H); discriminate H); intros (rc & [H|H]); discriminate H.
Qed.
Definition Prop_erase_all := (C53_erased, C53_memzero, C43_program).
Print Assumptions Prop_erase_all.
