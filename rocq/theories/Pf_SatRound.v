(** Saturation of water contents in binary64. *)

From Coq Require Import Reals Lra ZArith List Bool Lia.
From Flocq Require Import Core Plus_error.
From Verif Require Import Outcome Dbl Binary64 Types Soil Spec_Soil Spec_RoundMono Pf_Binary64 Pf_Counts Pf_RoundMono Pf_SoilAny.
Open Scope R_scope.

Section B64.
Local Existing Instance b64_valid.

Lemma floor_half : forall k, Zfloor (IZR k + / 2) = k.
Proof. intro k. apply Zfloor_imp. rewrite plus_IZR. lra. Qed.

(** The mirror image of a number in its rounding is rounded to the same integer. *)
Lemma mirror_Z : forall a m, ZnearestE a = m -> a <= IZR m -> ZnearestE (2 * IZR m - a) = m.
Proof.
  intros a m H L. pose proof (Znearest_half (fun x => negb (Z.even x)) a) as D. rewrite H in D. apply Rabs_le_inv in D. destruct (Req_dec a (IZR m - / 2)) as [T|T].
  - assert (A : a = IZR (m - 1) + / 2) by (rewrite minus_IZR; lra). replace (2 * IZR m - a) with (IZR m + / 2) by lra.
    unfold Znearest in H. rewrite A, floor_half in H. replace (IZR (m - 1) + / 2 - IZR (m - 1)) with (/ 2) in H by lra. rewrite Rcompare_Eq in H by reflexivity.
    unfold Znearest. rewrite floor_half. replace (IZR m + / 2 - IZR m) with (/ 2) by lra. rewrite Rcompare_Eq by reflexivity.
    destruct (Z.even (m - 1)) eqn:E; cbn [negb] in H; [lia|]. rewrite Z.even_sub in E. destruct (Z.even m); [reflexivity|discriminate].
  - apply Znearest_imp. apply Rabs_def1; lra.
Qed.

(** The mirror image of a double in its rounding is not rounded to a larger double. *)
Lemma mirror : forall w, bpow radix2 (-1074) <= w -> w <= b64_near w -> b64_near (2 * b64_near w - w) <= b64_near w.
Proof.
  intros w P1 L. assert (P : 0 < w) by (pose proof (bpow_gt_0 radix2 (-1074)); lra).
  assert (W1 : (-1073 <= mag radix2 w)%Z). { replace (-1073)%Z with (-1074 + 1)%Z by lia. apply mag_ge_bpow. replace (-1074 + 1 - 1)%Z with (-1074)%Z by lia. rewrite Rabs_pos_eq by lra. exact P1. }
  set (x := b64_near w) in *. set (y := 2 * x - w). set (c := b64_exp (mag radix2 w)). set (c' := b64_exp (mag radix2 y)).
  assert (X : x = IZR (ZnearestE (w * bpow radix2 (- c))) * bpow radix2 c) by reflexivity.
  assert (Y : b64_near y = IZR (ZnearestE (y * bpow radix2 (- c'))) * bpow radix2 c') by reflexivity.
  set (m := ZnearestE (w * bpow radix2 (- c))) in *. pose proof (bpow_gt_0 radix2 c) as Pc. pose proof (bpow_gt_0 radix2 (- c)) as Pc'.
  assert (I : bpow radix2 c * bpow radix2 (- c) = 1) by (rewrite <- bpow_plus, Z.add_opp_diag_r; reflexivity).
  assert (Im : x * bpow radix2 (- c) = IZR m) by (rewrite X, Rmult_assoc, I; ring).
  assert (Hm : w * bpow radix2 (- c) <= IZR m) by (rewrite <- Im; apply Rmult_le_compat_r; lra).
  assert (MY : (mag radix2 w <= mag radix2 y)%Z) by (apply mag_le; unfold y; lra).
  destruct (Z.eq_dec c' c) as [C|C].
  - rewrite Y, C. right. rewrite X. f_equal. f_equal. replace (y * bpow radix2 (- c)) with (2 * IZR m - w * bpow radix2 (- c)) by (unfold y; rewrite <- Im; ring). apply mirror_Z; [reflexivity|exact Hm].
  - assert (D : x - w <= bpow radix2 c / 2).
    { pose proof (Znearest_half (fun z => negb (Z.even z)) (w * bpow radix2 (- c))) as Q. fold m in Q. apply Rabs_le_inv in Q. destruct Q as [Q1 _].
      assert (E : (x - w) * bpow radix2 (- c) <= / 2) by (rewrite Rmult_minus_distr_r, Im; lra).
      replace (x - w) with ((x - w) * bpow radix2 (- c) * bpow radix2 c) by (rewrite Rmult_assoc, (Rmult_comm (bpow radix2 (- c))), I; ring). unfold Rdiv. rewrite (Rmult_comm _ (/ 2)). apply Rmult_le_compat_r; lra. }
    set (B := bpow radix2 (mag radix2 w)).
    assert (WB : w < B). { pose proof (bpow_mag_gt radix2 w) as Q. rewrite Rabs_pos_eq in Q by lra. exact Q. }
    assert (M1 : (mag radix2 y > mag radix2 w)%Z). { destruct (Z.eq_dec (mag radix2 y) (mag radix2 w)) as [E|E]; [|lia]. exfalso. apply C. unfold c', c. rewrite E. reflexivity. }
    assert (YB : B <= y). { apply Rnot_lt_le. intro N. assert (mag radix2 y <= mag radix2 w)%Z; [|lia]. apply mag_le_bpow; [unfold y; lra|]. rewrite Rabs_pos_eq by (unfold y; lra). exact N. }
    assert (C' : (c' = mag radix2 y - 53 /\ c' > c)%Z) by (unfold c', c, b64_exp, FLT_exp in *; lia).
    assert (CW : (c <= mag radix2 y - 54)%Z) by lia.
    assert (W0 : (-1074 <= c)%Z) by (unfold c, b64_exp, FLT_exp; lia).
    assert (XB : x <= B). { unfold x. rewrite <- (round_generic radix2 b64_exp ZnearestE B); [apply near_mono; lra|]. apply generic_format_bpow. unfold b64_exp, FLT_exp. lia. }
    assert (M2 : (mag radix2 y <= mag radix2 w + 1)%Z).
    { apply mag_le_bpow; [unfold y; lra|]. rewrite Rabs_pos_eq by (unfold y; lra). rewrite bpow_plus. fold B. change (bpow radix2 1) with 2. unfold y. lra. }
    assert (Xe : x = B).
    { destruct (Rle_lt_or_eq_dec _ _ XB) as [N|N]; [|exact N]. exfalso.
      assert (BI : B = IZR (2 ^ (mag radix2 w - c)) * bpow radix2 c) by (rewrite <- bpow_IZR by lia; rewrite <- bpow_plus; unfold B; f_equal; lia).
      rewrite X, BI in N. apply Rmult_lt_reg_r in N; [|exact Pc]. apply lt_IZR in N.
      assert (Q : IZR m <= IZR (2 ^ (mag radix2 w - c)) - 1) by (rewrite <- minus_IZR; apply IZR_le; lia).
      assert (x <= B - bpow radix2 c) by (rewrite X, BI; apply (Rmult_le_compat_r (bpow radix2 c)) in Q; lra). unfold y in YB. lra. }
    rewrite Y, Xe. replace B with (IZR (2 ^ (mag radix2 w - c')) * bpow radix2 c') by (rewrite <- bpow_IZR by lia; rewrite <- bpow_plus; unfold B; f_equal; lia).
    apply Rmult_le_compat_r; [apply bpow_ge_0|]. apply IZR_le. apply Zlt_succ_le. apply lt_IZR. unfold Z.succ. rewrite plus_IZR.
    pose proof (Znearest_half (fun z => negb (Z.even z)) (y * bpow radix2 (- c'))) as Q. apply Rabs_le_inv in Q.
    assert (YQ : y * bpow radix2 (- c') <= IZR (2 ^ (mag radix2 w - c')) + / 4); [|lra].
    pose proof (bpow_gt_0 radix2 (- c')) as Pd.
    assert (Y1 : y <= B + bpow radix2 c / 2) by (unfold y; lra). apply (Rmult_le_compat_r (bpow radix2 (- c'))) in Y1; [|lra].
    rewrite Rmult_plus_distr_r in Y1. replace (B * bpow radix2 (- c')) with (IZR (2 ^ (mag radix2 w - c'))) in Y1 by (rewrite <- bpow_IZR by lia; unfold B; rewrite <- bpow_plus; f_equal; lia).
    assert (S : bpow radix2 c * bpow radix2 (- c') <= / 2); [|lra]. rewrite <- bpow_plus. change (/ 2) with (bpow radix2 (-1)). apply bpow_le. lia.
Qed.

(** Doubles are multiples of the smallest one. *)
Lemma gap : forall e r, b64_near e = e -> b64_near r = r -> r < e -> bpow radix2 (-1074) <= e - r.
Proof.
  assert (F : forall x, b64_near x = x -> exists n, x = IZR n * bpow radix2 (-1074)).
  { intros x H. assert (G : generic_format radix2 b64_exp x) by (rewrite <- H; apply generic_format_round; [apply b64_valid|apply valid_rnd_N]).
    unfold b64_exp in G. apply generic_format_FIX_FLT in G. apply FIX_format_generic in G. destruct G as [f G1 G2]. exists (Fnum f). rewrite G1. unfold F2R. rewrite G2. reflexivity. }
  intros e r He Hr L. destruct (F e He) as [n ->]. destruct (F r Hr) as [k ->]. pose proof (bpow_gt_0 radix2 (-1074)) as P. apply Rmult_lt_reg_r in L; [|exact P]. apply lt_IZR in L.
  rewrite <- Rmult_minus_distr_r, <- minus_IZR. assert (1 <= IZR (n - k)) by (apply IZR_le; lia). rewrite <- (Rmult_1_l (bpow radix2 (-1074))) at 1. apply Rmult_le_compat_r; lra.
Qed.

(** The difference and the sum of two doubles: taking the second off again leaves at most the first difference. *)
Lemma back : forall e r, b64_near e = e -> b64_near r = r -> r < e -> b64_near (b64_near (b64_near (e - r) + r) - r) <= b64_near (e - r).
Proof.
  intros e r He Hr L. set (x := b64_near (e - r)). set (t := b64_near (x + r)). destruct (Rle_dec (x + r) e) as [Q|Q].
  - apply near_mono. assert (t <= e); [|lra]. unfold t. rewrite <- He. apply near_mono. exact Q.
  - assert (N : t - (x + r) <= x + r - e).
    { destruct (round_N_pt radix2 b64_exp (fun z => negb (Z.even z)) (x + r)) as [_ N]. specialize (N e). assert (G : generic_format radix2 b64_exp e) by (rewrite <- He; apply generic_format_round; [apply b64_valid|apply valid_rnd_N]).
      specialize (N G). change (round radix2 b64_exp ZnearestE (x + r)) with t in N. rewrite (Rabs_left1 (e - (x + r))) in N by lra. pose proof (Rle_abs (t - (x + r))). lra. }
    apply Rle_trans with (b64_near (2 * x - (e - r))); [apply near_mono; lra|]. apply mirror; [apply gap; assumption|fold x; lra].
Qed.

Local Existing Instance binary64.
Notation nn a := (below (Fin 0) a).

Lemma near_fix : forall x, 0 <= x <= 1 -> rnd x = Fin x -> b64_near x = x.
Proof. intros x B H. rewrite rnd_small in H by (apply fits; lra). injection H as H. exact H. Qed.

Lemma porosity : forall e r, 0 <= r < e -> e <= 1 -> rnd r = Fin r -> rnd e = Fin e -> (Fin e - Fin r)%d = Fin (b64_near (e - r)) /\ 0 < b64_near (e - r) <= 1.
Proof.
  intros e r R E Hr He. split; [cbn [dsub]; apply rnd_small; apply fits; lra|]. split; [|rewrite <- near_one; apply near_mono; lra].
  assert (G : bpow radix2 (-1074) <= e - r) by (apply gap; [apply near_fix|apply near_fix|]; auto; lra). pose proof (bpow_gt_0 radix2 (-1074)).
  apply Rlt_le_trans with (bpow radix2 (-1074)); [assumption|]. rewrite <- (round_generic radix2 b64_exp ZnearestE (bpow radix2 (-1074))); [apply near_mono; assumption|].
  apply generic_format_bpow. unfold b64_exp, FLT_exp. lia.
Qed.

Lemma content_bound : forall s r e t, rounded_soil s r e -> rnd e = Fin e -> r <= t -> (t <= e \/ exists h, nn h /\ below (Fin t) (theta_of_h s h)) ->
  b64_near (t - r) <= b64_near (e - r) /\ t <= 2.
Proof.
  intros s r e t RS He L H. pose proof RS as (_ & _ & R & E & Hr & _). destruct (porosity e r R E Hr He) as (EX & HX). destruct H as [H|(h & N & H)].
  - split; [apply near_mono|]; lra.
  - destruct (theta_mono s r e h h RS N ltac:(apply below_refl; intro; subst h; discriminate)) as (_ & _ & T). pose proof (below_trans _ _ _ H T) as Q. rewrite EX in Q. cbn [dadd] in Q.
    rewrite rnd_small in Q by (apply fits; lra). apply below_fin in Q.
    assert (S2 : b64_near (b64_near (e - r) + r) <= 2). { rewrite <- (near_IZR 2) by (cbn; lia). apply near_mono. lra. }
    split; [|lra]. eapply Rle_trans; [apply near_mono; apply Rplus_le_compat_r; exact Q|]. apply back; [apply near_fix|apply near_fix|]; auto; lra.
Qed.

Lemma Se_is : forall s r e t, rounded_soil s r e -> rnd e = Fin e -> r <= t -> b64_near (t - r) <= b64_near (e - r) -> t <= 2 ->
  0 <= b64_near (t - r) / b64_near (e - r) <= 1 /\ Se_of_theta s (Fin t) = Fin (b64_near (b64_near (t - r) / b64_near (e - r))).
Proof.
  intros s r e t RS He L B T2. pose proof RS as (Er & Ee & R & E & Hr & _). destruct (porosity e r R E Hr He) as (EX & HX).
  assert (P : 0 <= b64_near (t - r)) by (rewrite <- near_zero; apply near_mono; lra).
  assert (Q : 0 <= b64_near (t - r) / b64_near (e - r) <= 1).
  { split; [apply Rmult_le_pos; [exact P|left; apply Rinv_0_lt_compat; lra]|]. apply Rmult_le_reg_r with (b64_near (e - r)); [lra|]. unfold Rdiv. rewrite Rmult_assoc, Rinv_l by lra. lra. }
  split; [exact Q|]. unfold Se_of_theta, calc_Se_from_theta. rewrite Er, Ee, EX. cbn [dsub]. rewrite rnd_small by (apply fits; lra). apply div_near; [lra|]. apply fits. lra.
Qed.

(** The saturation is at most 1. *)
Lemma saturation_unit : forall s r e t, rounded_soil s r e -> rnd e = Fin e -> r <= t -> (t <= e \/ exists h, nn h /\ below (Fin t) (theta_of_h s h)) -> unit_range (Se_of_theta s (Fin t)).
Proof.
  intros s r e t RS He L H. destruct (content_bound s r e t RS He L H) as (B & T2). destruct (Se_is s r e t RS He L B T2) as (Q & ->). eexists. split; [reflexivity|].
  split; [rewrite <- near_zero|rewrite <- near_one]; apply near_mono; lra.
Qed.

(** Above a residual content it is positive. *)
Lemma saturation_pos : forall s r e t, rounded_soil s r e -> rnd e = Fin e -> r < t -> b64_near t = t -> (t <= e \/ exists h, nn h /\ below (Fin t) (theta_of_h s h)) -> exists x, Se_of_theta s (Fin t) = Fin x /\ 0 < x <= 1.
Proof.
  intros s r e t RS He L Ht H. destruct (content_bound s r e t RS He ltac:(lra) H) as (B & T2). destruct (Se_is s r e t RS He ltac:(lra) B T2) as (Q & ->). eexists. split; [reflexivity|].
  pose proof RS as (_ & _ & R & E & Hr & _). destruct (porosity e r R E Hr He) as (_ & HX).
  assert (G : bpow radix2 (-1074) <= t - r) by (apply gap; [exact Ht|apply near_fix; [lra|exact Hr]|exact L]). pose proof (bpow_gt_0 radix2 (-1074)) as P.
  assert (F : b64_near (bpow radix2 (-1074)) = bpow radix2 (-1074)) by (apply round_generic; [apply valid_rnd_N|]; apply generic_format_bpow; unfold b64_exp, FLT_exp; lia).
  apply near_mono in G. rewrite F in G. split; [|rewrite <- near_one; apply near_mono; lra]. apply Rlt_le_trans with (bpow radix2 (-1074)); [exact P|]. rewrite <- F. apply near_mono.
  apply Rle_trans with (b64_near (t - r)); [exact G|]. apply Rmult_le_reg_r with (b64_near (e - r)); [lra|]. unfold Rdiv. rewrite Rmult_assoc, Rinv_l by lra. assert (0 < b64_near (t - r)) by lra. nra.
Qed.

(** From theta_e on it is 1. *)
Lemma saturation_one : forall s r e t, rounded_soil s r e -> rnd e = Fin e -> e <= t -> (t <= e \/ exists h, nn h /\ below (Fin t) (theta_of_h s h)) -> Se_of_theta s (Fin t) = Fin 1.
Proof.
  intros s r e t RS He L H. pose proof RS as (_ & _ & R & E & Hr & _). destruct (content_bound s r e t RS He ltac:(lra) H) as (B & T2). destruct (Se_is s r e t RS He ltac:(lra) B T2) as (_ & ->).
  destruct (porosity e r R E Hr He) as (_ & HX). assert (X : b64_near (t - r) = b64_near (e - r)) by (apply Rle_antisym; [exact B|apply near_mono; lra]).
  rewrite X. unfold Rdiv. rewrite Rinv_r by lra. rewrite near_one. reflexivity.
Qed.
End B64.

(** Conductivity and head of a saturated soil, for any rounding. *)
Section Any.
Context {fp : Fp}.

Lemma K_one : forall k m, rnd k = Fin k -> 0 < m <= 1 -> calc_K_from_Se (Fin 1) (Fin k) (Fin m) = Fin k.
Proof.
  intros k m Hk Hm. unfold calc_K_from_Se. assert (P1 : forall b, dpow (Fin 1) b = Fin 1).
  { intro b. unfold dpow. destruct (deqb b (Fin 0)); [reflexivity|]. replace (deqb (Fin 1) (Fin 1)) with true; [reflexivity|]. cbn. unfold Reqb. destruct (Req_EM_T 1 1); [reflexivity|lra]. }
  rewrite P1. unfold lit. rewrite rnd_one. cbn [dsub]. replace (1 - 1) with 0 by lra. rewrite rnd_zero, pow_fin, Pf_Soil.pw_0, rnd_zero by lra. cbn [dsub]. rewrite Rminus_0_r, rnd_one, P1.
  cbn [dsqrt]. destruct (Rlt_dec 1 0); [lra|]. rewrite sqrt_1, rnd_one. cbn [dmul]. rewrite Rmult_1_r, Hk. cbn [dmul]. rewrite Rmult_1_r. exact Hk.
Qed.

Lemma K_range : forall S k m, unit_range S -> rnd k = Fin k -> 0 <= k -> 0 < m <= 1 -> exists K, calc_K_from_Se S (Fin k) (Fin m) = Fin K /\ 0 <= K <= k.
Proof.
  intros S k m U Hk H0 Hm. assert (U1 : unit_range (Fin 1)) by (exists 1; split; [reflexivity|lra]). assert (U0 : unit_range (Fin 0)) by (exists 0; split; [reflexivity|lra]).
  pose proof U as (x & -> & Hx). pose proof (K_mono (Fin x) (Fin 1) k m U U1 ltac:(apply below_fin; lra) Hk H0 Hm) as A. pose proof (K_mono (Fin 0) (Fin x) k m U0 U ltac:(apply below_fin; lra) Hk H0 Hm) as B.
  rewrite K_one in A by assumption.
  assert (Z : exists z, calc_K_from_Se (Fin 0) (Fin k) (Fin m) = Fin z /\ 0 <= z).
  { pose proof (K_mono (Fin 0) (Fin 1) k m U0 U1 ltac:(apply below_fin; lra) Hk H0 Hm) as C. rewrite K_one in C by assumption. unfold calc_K_from_Se in C |- *. cbn [dsqrt] in C |- *. destruct (Rlt_dec 0 0); [lra|].
    rewrite sqrt_0, rnd_zero in C |- *. cbn [dmul] in C |- *. rewrite Rmult_0_r, rnd_zero in C |- *. revert C. generalize (dpow (lit 1 - dpow (lit 1 - dpow (Fin 0) (lit 1 / Fin m)) (Fin m)) (lit 2))%d. intros [p| | |] C; cbn [dmul] in C |- *.
    - rewrite Rmult_0_l, rnd_zero. exists 0. split; [reflexivity|lra].
    - assert (IS : inf_sign 0 = NaN) by (unfold inf_sign; destruct (Rlt_dec 0 0); [lra|reflexivity]). rewrite IS in C. discriminate C.
    - assert (IS : inf_sign 0 = NaN) by (unfold inf_sign; destruct (Rlt_dec 0 0); [lra|reflexivity]). rewrite IS in C. discriminate C.
    - discriminate C. }
  destruct Z as (z & Z & Hz). rewrite Z in B. destruct (calc_K_from_Se (Fin x) (Fin k) (Fin m)) as [K| | |]; try discriminate. apply below_fin in A, B. exists K. split; [reflexivity|lra].
Qed.

Lemma h_zero : forall s ia, (lit 1 / s_alpha s)%d = Fin ia -> (exists n, s_n s = Fin n /\ 1 < n) -> (lit 1 / s_n s)%d <> Fin 0 -> h_of_Se s (Fin 1) = Fin 0.
Proof.
  intros s ia Ei (n & En & Hn) N. unfold h_of_Se, calc_h_from_Se. rewrite Ei. assert (P1 : forall b, dpow (Fin 1) b = Fin 1).
  { intro b. unfold dpow. destruct (deqb b (Fin 0)); [reflexivity|]. replace (deqb (Fin 1) (Fin 1)) with true; [reflexivity|]. cbn. unfold Reqb. destruct (Req_EM_T 1 1); [reflexivity|lra]. }
  rewrite P1. unfold lit in *. rewrite rnd_one in *. cbn [dsub]. replace (1 - 1) with 0 by lra. rewrite rnd_zero. rewrite En in *. cbn [ddiv] in *. destruct (Req_EM_T n 0); [lra|].
  assert (I : 0 <= 1 / n <= 1). { split; [left; apply Rdiv_lt_0_compat; lra|]. apply Rmult_le_reg_r with n; [lra|]. unfold Rdiv. rewrite Rmult_assoc, Rinv_l by lra. lra. }
  destruct (rnd_unit _ I) as (q & Eq & Hq). rewrite Eq in *. assert (q <> 0) by congruence. rewrite pow_fin, Pf_Soil.pw_0, rnd_zero by lra. cbn [dmul]. rewrite Rmult_0_r. apply rnd_zero.
Qed.
End Any.
