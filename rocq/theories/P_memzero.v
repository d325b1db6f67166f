(** insecure_memzero zeroes exactly the first len bytes. *)
From Verif Require Import Base M_memzero P_scrypt_ref.
Lemma memzero_loop_ok : forall n a b, (n <= length b)%nat ->
  memzero_loop n (length a) (a ++ b) = Ok (a ++ repeat 0 n ++ skipn n b).
Proof.
  induction n as [|n IH]; intros a b HL; cbn [memzero_loop]; [reflexivity|].
  destruct b as [|x b]; [cbn in HL; lia|].
  assert (wr (a ++ x :: b) (length a) [0] = Ok ((a ++ [0]) ++ b)) as ->.
  { unfold wr, upd. cbn [length]. rewrite app_length. cbn [length].
    destruct (Nat.leb_spec (length a + 1) (length a + S (length b))); [|lia].
    rewrite firstn_app, Nat.sub_diag, firstn_all, firstn_O, app_nil_r, <- app_assoc.
    rewrite skipn_app, skipn_all2 by lia. replace (length a + 1 - length a)%nat with 1%nat by lia. reflexivity. }
  rewrite bind_Ok. specialize (IH (a ++ [0]) b ltac:(cbn in HL; lia)).
  rewrite app_length in IH. cbn [length] in IH. rewrite Nat.add_1_r in IH. rewrite IH.
  rewrite <- app_assoc. reflexivity.
Qed.
Lemma insecure_memzero_ok buf len : (len <= length buf)%nat ->
  insecure_memzero buf len = Ok (repeat 0 len ++ skipn len buf).
Proof. intros H. exact (memzero_loop_ok len [] buf H). Qed.
Lemma insecure_memzero_overrun buf len : (length buf < len)%nat -> insecure_memzero buf len = UB.
Proof.
  unfold insecure_memzero. intros H.
  assert (forall n i b, length b = length buf -> (i <= length b)%nat -> (length b < i + n)%nat -> memzero_loop n i b = UB) as HG.
  { induction n as [|n IH]; intros i b HL Hi HLen; cbn [memzero_loop]; [lia|].
    unfold wr, upd. cbn [length]. destruct (Nat.leb_spec (i + 1) (length b)) as [H1|H1]; [|reflexivity].
    rewrite bind_Ok. apply IH; rewrite !app_length, firstn_length, skipn_length; cbn [length]; lia. }
  apply HG; [reflexivity|lia|lia].
Qed.
