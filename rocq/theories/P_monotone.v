(** Rounded multiplication and division by a positive number are monotone, also
    across overflow; so are the memory budget and the two limit decisions. *)
From Coq Require Import Reals Lra.
From Flocq Require Import Core IEEE754.BinarySingleNaN.
From Verif Require Import Base SpecScrypt SpecDouble M_double P_double M_memlimit P_memlimit M_params P_params M_machine P_scrypt.
Local Open Scope N_scope.

(** Every bound that holds of x holds of y. *)
Definition dom (x y : double) : Prop := forall q, at_most q x -> at_most q y.
Lemma dom_refl x : dom x x.
Proof. intros q H. exact H. Qed.
(** z is the rounded value of v, overflowing to an infinity of the right sign. *)
Definition rounded (z : double) (v : R) : Prop :=
  (is_finite z = true /\ B2R z = rnd v) \/
  (z = dinf /\ (bpow radix2 1024 <= rnd v)%R) \/
  (z = B754_infinity true /\ (rnd v <= - bpow radix2 1024)%R).
Lemma fin_bound (z : double) : is_finite z = true -> (- bpow radix2 1024 < B2R z < bpow radix2 1024)%R.
Proof. intros F. pose proof (abs_B2R_lt_emax 53 1024 z) as H. apply Rabs_lt_inv in H. exact H. Qed.
Lemma rounded_dom z v z' v' : rounded z v -> rounded z' v' -> (v <= v')%R -> dom z z'.
Proof.
  intros H H' Hv q Hq. pose proof (rnd_le v v' Hv) as HR. pose proof (bpow_gt_0 radix2 1024) as Hp.
  destruct H as [[F E]|[[-> E]|[-> E]]].
  - destruct Hq as [-> |[_ Hq]]; [discriminate F|]. pose proof (fin_bound z F) as HB.
    destruct H' as [[F' E']|[[-> E']|[-> E']]].
    + right. split; [exact F'|]. lra.
    + left. reflexivity.
    + exfalso. lra.
  - destruct H' as [[F' E']|[[-> E']|[-> E']]].
    + exfalso. pose proof (fin_bound z' F'). lra.
    + left. reflexivity.
    + exfalso. lra.
  - destruct Hq as [Hq|[Hq _]]; discriminate.
Qed.
Lemma sign_value (x : double) : is_finite x = true -> (if Bsign x then B2R x <= 0 else 0 <= B2R x)%R.
Proof.
  destruct x as [s|s| |s m e E]; intros F; try discriminate F.
  - cbn. destruct s; lra.
  - destruct s; cbn.
    + apply F2R_le_0. cbn. lia.
    + apply F2R_ge_0. cbn. lia.
Qed.
Lemma SF_ninf (x : double) : B2SF x = SpecFloat.S754_infinity true -> x = B754_infinity true.
Proof. destruct x as [s|[|]| |s m e E]; intros H; try discriminate; reflexivity. Qed.
Lemma overflow_rounded (z : double) (s : bool) (v : R) :
  (bpow radix2 1024 <= Rabs (rnd v))%R -> (if s then v <= 0 else 0 <= v)%R ->
  B2SF z = SpecFloat.S754_infinity s -> rounded z v.
Proof.
  intros HO Hs HZ. right. destruct s.
  - right. split; [apply SF_ninf; exact HZ|]. assert (rnd v <= 0)%R by (apply rnd_upper; [apply fmt_0|exact Hs]).
    rewrite Rabs_left1 in HO by assumption. lra.
  - left. split; [apply SF_inf; exact HZ|]. assert (0 <= rnd v)%R by (apply rnd_lower; [apply fmt_0|exact Hs]).
    rewrite Rabs_pos_eq in HO by assumption. lra.
Qed.
Lemma dmul_rounded c x : is_finite c = true -> (0 < B2R c)%R -> is_finite x = true -> rounded (dmul c x) (B2R c * B2R x).
Proof.
  intros Fc Hc Fx. unfold dmul. pose proof (Bmult_correct 53 1024 _ _ mode_NE c x) as HM.
  destruct (Rlt_bool_spec (Rabs (rnd (B2R c * B2R x))) (bpow radix2 1024)) as [HL|HL].
  - destruct HM as (H1 & H2 & _). left. split; [rewrite H2, Fc, Fx; reflexivity|exact H1].
  - apply (overflow_rounded _ (Bsign x)); [exact HL| |].
    + pose proof (sign_value x Fx). destruct (Bsign x); nra.
    + rewrite HM, (Bsign_pos c Fc Hc). destruct (Bsign x); reflexivity.
Qed.
Lemma ddiv_rounded x c : is_finite c = true -> (0 < B2R c)%R -> is_finite x = true -> rounded (ddiv x c) (B2R x / B2R c).
Proof.
  intros Fc Hc Fx. unfold ddiv. pose proof (Bdiv_correct 53 1024 _ _ mode_NE x c ltac:(lra)) as HM.
  destruct (Rlt_bool_spec (Rabs (rnd (B2R x / B2R c))) (bpow radix2 1024)) as [HL|HL].
  - destruct HM as (H1 & H2 & _). left. split; [rewrite H2; exact Fx|exact H1].
  - apply (overflow_rounded _ (Bsign x)); [exact HL| |].
    + pose proof (sign_value x Fx). pose proof (Rinv_0_lt_compat _ Hc). unfold Rdiv. destruct (Bsign x); nra.
    + rewrite HM, (Bsign_pos c Fc Hc). destruct (Bsign x); reflexivity.
Qed.
Lemma dmul_inf c s : is_finite c = true -> (0 < B2R c)%R -> dmul c (B754_infinity s) = B754_infinity s.
Proof.
  intros F H. pose proof (Bsign_pos c F H) as HS. destruct c as [t|t| |t m e E]; try discriminate F.
  - cbn in H. lra.
  - cbn in HS. subst t. destruct s; reflexivity.
Qed.
Lemma ddiv_inf c s : is_finite c = true -> (0 < B2R c)%R -> ddiv (B754_infinity s) c = B754_infinity s.
Proof.
  intros F H. pose proof (Bsign_pos c F H) as HS. destruct c as [t|t| |t m e E]; try discriminate F.
  - cbn in H. lra.
  - cbn in HS. subst t. destruct s; reflexivity.
Qed.
Lemma dom_ninf y : dom (B754_infinity true) y.
Proof. intros q [H|[H _]]; discriminate. Qed.
Lemma dom_inf x : dom x dinf.
Proof. intros q _. left. reflexivity. Qed.
Lemma dom_fin x y : is_finite x = true -> is_finite y = true -> (dom x y <-> (B2R x <= B2R y)%R).
Proof.
  intros Fx Fy. split.
  - intros H. destruct (H (B2R x)) as [E|[_ E]]; [right; split; [exact Fx|lra]|subst; discriminate Fy|exact E].
  - intros H q [E|[_ E]]; [subst; discriminate Fx|]. right. split; [exact Fy|lra].
Qed.
(** The three shapes of a domination between numbers. *)
Lemma dom_cases x y : is_nan x = false -> is_nan y = false -> dom x y ->
  x = B754_infinity true \/ y = dinf \/ (is_finite x = true /\ is_finite y = true /\ (B2R x <= B2R y)%R).
Proof.
  intros Hx Hy H. destruct (number_cases x Hx) as [Fx|[-> | ->]]; [| |auto].
  - destruct (number_cases y Hy) as [Fy|[-> | ->]]; [|auto|].
    + right; right. repeat split; auto. apply dom_fin; auto.
    + destruct (H (B2R x)) as [E|[E _]]; [right; split; [exact Fx|lra]|discriminate|discriminate].
  - destruct (H 0%R) as [E|[E E']]; [left; reflexivity|auto|].
    destruct (H (B2R y + 1)%R) as [E2|[_ E2]]; [left; reflexivity|auto|]. lra.
Qed.
Lemma dle_dom x y : dle x y = true -> is_nan x = false /\ is_nan y = false /\ dom x y.
Proof.
  intros H. assert (is_nan x = false) as Hx by (destruct x; try reflexivity; discriminate H).
  assert (is_nan y = false) as Hy by (destruct y; try reflexivity; destruct x as [| [|] | |]; discriminate H).
  split; [exact Hx|]. split; [exact Hy|].
  destruct (number_cases x Hx) as [Fx|[-> | ->]]; [| |apply dom_ninf].
  - destruct (number_cases y Hy) as [Fy|[-> | ->]]; [|apply dom_inf|].
    + apply dom_fin; auto. rewrite dle_fin in H by assumption. destruct (Rle_bool_spec (B2R x) (B2R y)); [assumption|discriminate].
    + destruct x as [[|]|[|]| |[|] m e E]; discriminate.
  - destruct y as [[|]|[|]| |[|] m e E]; try discriminate. apply dom_inf.
Qed.
Lemma dmul_dom c x y : is_finite c = true -> (0 < B2R c)%R -> is_nan x = false -> is_nan y = false ->
  dom x y -> dom (dmul c x) (dmul c y).
Proof.
  intros Fc Hc Hx Hy H. destruct (dom_cases x y Hx Hy H) as [-> |[-> |(Fx & Fy & HL)]].
  - rewrite dmul_inf by assumption. apply dom_ninf.
  - unfold dinf. rewrite dmul_inf by assumption. apply dom_inf.
  - apply (rounded_dom _ _ _ _ (dmul_rounded c x Fc Hc Fx) (dmul_rounded c y Fc Hc Fy)). nra.
Qed.
Lemma ddiv_number x c : is_finite c = true -> (0 < B2R c)%R -> is_nan x = false -> is_nan (ddiv x c) = false.
Proof.
  intros Fc Hc Hx. destruct (number_cases x Hx) as [Fx|[-> | ->]].
  - destruct (ddiv_rounded x c Fc Hc Fx) as [[F _]|[[-> _]|[-> _]]]; [apply fin_nan; exact F|reflexivity|reflexivity].
  - rewrite ddiv_inf by assumption. reflexivity.
  - rewrite ddiv_inf by assumption. reflexivity.
Qed.
Lemma ddiv_dom x y c : is_finite c = true -> (0 < B2R c)%R -> is_nan x = false -> is_nan y = false ->
  dom x y -> dom (ddiv x c) (ddiv y c).
Proof.
  intros Fc Hc Hx Hy H. destruct (dom_cases x y Hx Hy H) as [-> |[-> |(Fx & Fy & HL)]].
  - rewrite ddiv_inf by assumption. apply dom_ninf.
  - unfold dinf. rewrite ddiv_inf by assumption. apply dom_inf.
  - apply (rounded_dom _ _ _ _ (ddiv_rounded x c Fc Hc Fx) (ddiv_rounded y c Fc Hc Fy)).
    pose proof (Rinv_0_lt_compat _ Hc). unfold Rdiv. nra.
Qed.
(** The speed check. *)
Lemma cpu_dom O O' l r p : l <= 64 -> 0 < r -> r < 2 ^ 30 -> 0 < p -> p < 2 ^ 30 -> is_nan O = false -> is_nan O' = false -> dom O O' ->
  cpu_too_slow O l r p = false -> cpu_too_slow O' l r p = false.
Proof.
  intros Hl Hr Hr' Hp Hp' HO HO' HD. unfold cpu_too_slow.
  destruct (of_N_pow2 l Hl) as [F1 V1]. assert (0 < B2R (of_N (2 ^ l)))%R as P1 by (rewrite V1; apply bpow_gt_0).
  destruct (small_pos r Hr Hr') as (F2 & V2 & B2). assert (0 < B2R (of_N r))%R as P2 by lra.
  destruct (small_pos p Hp Hp') as (F3 & V3 & B3). assert (0 < B2R (of_N p))%R as P3 by lra.
  destruct (of_N_exact 4 ltac:(lia)) as [F4 _].
  assert (forall X, is_nan X = false -> is_nan (ddiv (ddiv (ddiv X (of_N (2 ^ l))) (of_N r)) (of_N p)) = false) as HN
    by (intros X HX; repeat apply ddiv_number; assumption).
  intros H. apply not_lt_at_most in H; [|apply HN; assumption|exact F4].
  apply not_lt_at_most; [apply HN; assumption|exact F4|].
  revert H. apply ddiv_dom; auto; [repeat apply ddiv_number; assumption..|].
  apply ddiv_dom; auto; [repeat apply ddiv_number; assumption..|].
  apply ddiv_dom; auto.
Qed.
(** The memory budget. *)
Lemma memtouse_mono szb e m f m' f' L L' : size_bits szb ->
  memtouse szb e m f = Ok (Some L) -> memtouse szb e m' f' = Ok (Some L') ->
  m' = 0 \/ 0 < m <= m' -> dle f f' = true -> L <= L'.
Proof.
  intros Hs H H' Hm Hf. apply memtouse_inv in H, H'.
  destruct H as (F & R & [H|(u & a & b & c & d & v & A1 & A2 & A3 & A4 & A5 & A6 & A7)]); [discriminate|].
  destruct H' as (F' & R' & [H'|(u' & a' & b' & c' & d' & v' & B1 & B2 & B3 & B4 & B5 & B6 & B7)]); [discriminate|].
  rewrite A1 in B1. rewrite A2 in B2. rewrite A3 in B3. rewrite A4 in B4. rewrite A5 in B5.
  injection B1 as <-. injection B2 as <-. injection B3 as <-. injection B4 as <-. injection B5 as <-.
  assert (L = final_mem m v) as -> by congruence. assert (L' = final_mem m' v') as -> by congruence.
  destruct (size_max_lt szb Hs) as [HM1 HM2].
  destruct (smallest_le szb (adjusted szb u d) a b c d) as (G0 & _).
  set (k := smallest szb (adjusted szb u d) a b c d) in *. clearbody k.
  destruct (dmul_frac f k F R) as (D1 & D2 & D3); [lia|]. destruct (dmul_frac f' k F' R') as (D1' & D2' & D3'); [lia|].
  apply to_uint_inv in A6, B6. destruct A6 as (_ & _ & A6), B6 as (_ & _ & B6). specialize (A6 D3). specialize (B6 D3').
  rewrite dle_fin in Hf by assumption. destruct (Rle_bool_spec (B2R f) (B2R f')) as [HL|]; [|discriminate].
  assert (B2R (dmul f (of_N k)) <= B2R (dmul f' (of_N k)))%R as HV.
  { rewrite D2, D2'. apply rnd_le. apply Rmult_le_compat_r; [|exact HL].
    destruct (of_N_spec k ltac:(lia)) as [_ ->]. rewrite <- (rnd_fmt 0 fmt_0). apply rnd_le. apply (IZR_le 0). lia. }
  assert (v <= v') as Hv.
  { assert (IZR (Z.of_N v) < IZR (Z.of_N v' + 1))%R as HI by (rewrite plus_IZR; lra). apply lt_IZR in HI. lia. }
  clear - Hm Hv. unfold final_mem.
  destruct (N.ltb_spec 0 m), (N.ltb_spec m v), (N.ltb_spec 0 m'), (N.ltb_spec m' v'); cbn [andb]; lia.
Qed.
(** Whether the memory of the machine can be determined does not depend on the limits. *)
Lemma memtouse_known szb e m f m' f' L : memtouse szb e m f = Ok (Some L) -> memtouse szb e m' f' <> Ok None.
Proof.
  intros H H'. apply memtouse_inv in H. destruct H as (_ & _ & [H|(u & a & b & c & d & v & A1 & A2 & A3 & A4 & A5 & _)]); [discriminate|].
  unfold memtouse in H'. rewrite A1, A2, A3, A4, A5 in H'. destruct (assert_ _); cbn [bind] in H'; try discriminate.
  cbv zeta in H'. destruct (to_uint szb _); cbn [bind] in H'; discriminate.
Qed.
